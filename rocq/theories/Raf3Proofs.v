(** Proofs for C71: the rows of what is read, without and with bins. *)
From Coq Require Import String.
From Verif Require Import Base PyStr QBase DateModel DateProofs FileListModel AeroModel UngrModel UngrSpec UngrProofs GU3Proofs GU5Proofs GG3Proofs RafModel RafSpec RafProofs Raf2Proofs.
From Coq Require Import List Lia.
Import ListNotations.
Open Scope string_scope. Open Scope list_scope. Open Scope nat_scope. Notation length := List.length.

Lemma points_to_unique f a v w : points_to f a v -> points_to f a w -> v = w.
Proof. intros [E _] [E' _]. congruence. Qed.
Lemma words_of_unique s a b : words_of s a -> words_of s b -> a = b.
Proof. intros H1 H2. apply words_unique in H1, H2. congruence. Qed.
Theorem described_unique f t la lo al t' la' lo' al' : described f t la lo al -> described f t' la' lo' al' -> t = t' /\ la = la' /\ lo = lo' /\ al = al'.
Proof.
  assert (PU : forall a v w, points_to f a v -> points_to f a w -> v = w) by (intros; eapply points_to_unique; eauto).
  assert (PN : forall a v, points_to f a v -> attribute f a <> None) by (intros a v [E _]; congruence).
  intros D D'. inversion D; subst; inversion D'; subst;
    try (exfalso; match goal with H : points_to f ?a _, N : attribute f ?a = None |- _ => exact (PN _ _ H N) end);
    repeat match goal with H : points_to f ?a ?v, H' : points_to f ?a ?w |- _ => pose proof (PU _ _ _ H H'); subst; clear H' end;
    try match goal with H : attribute f ?a = Some (Txt ?s), H' : attribute f ?a = Some (Txt ?s'), W : words_of ?s _, W' : words_of ?s' _ |- _ =>
      rewrite H in H'; injection H' as <-; pose proof (words_of_unique _ _ _ W W') as EW; injection EW as <- <- <- <- end; auto.
Qed.
Lemma pressure_unique f p q : pressure_named f p -> pressure_named f q -> p = q.
Proof. unfold pressure_named. intuition congruence. Qed.

(** ** bins *)
Lemma stretch_F2 {X} (P : X -> option Q -> Prop) nb pts xs : Forall2 P pts xs -> Forall2 (fun xb o => P (fst xb) o) (flat_map (fun x => map (fun b => (x, b)) (seq 0 nb)) pts) (flat_map (fun o => repeat o nb) xs).
Proof.
  induction 1 as [|x o pts xs H F IH]; [constructor|]. cbn [flat_map]. apply Forall2_app; auto. apply F2_intro; [rewrite map_length, seq_length, repeat_length; auto|]. intros i y z Ey Ez. apply nth_error_In, repeat_spec in Ez. subst z.
  rewrite nth_error_map in Ey. destruct (nth_error _ i); [|discriminate]. injection Ey as <-. exact H.
Qed.
Lemma bins_F2 {X} data (pts : list X) : Forall2 (fun xb (o : option Q) => nth_error data (snd xb) = Some o) (flat_map (fun x => map (fun b => (x, b)) (seq 0 (length data))) pts) (concat (repeat data (length pts))).
Proof.
  induction pts as [|x pts IH]; [constructor|]. cbn [flat_map length repeat concat]. apply Forall2_app; auto. apply F2_intro; [rewrite map_length, seq_length; auto|]. intros i y z Ey Ez. assert (i < length data) by (apply nth_error_Some; congruence).
  rewrite nth_error_map, (nth_error_nth' _ 0) in Ey by (rewrite seq_length; auto). rewrite seq_nth in Ey by auto. injection Ey as <-. exact Ez.
Qed.
Lemma grid_F2 nb n : forall data : list (option Q), length data = n * nb ->
  Forall2 (fun jb o => nth_error data (fst jb * nb + snd jb) = Some o) (flat_map (fun j => map (fun b => (j, b)) (seq 0 nb)) (seq 0 n)) data.
Proof.
  induction n as [|n IH]; intros data L; [destruct data; [constructor|discriminate]|].
  rewrite seq_S, flat_map_app. cbn [flat_map plus]. rewrite app_nil_r. assert (S1 : data = firstn (n * nb) data ++ skipn (n * nb) data) by (symmetry; apply firstn_skipn).
  assert (L1 : length (firstn (n * nb) data) = n * nb) by (rewrite firstn_length; lia). assert (L2 : length (skipn (n * nb) data) = nb) by (rewrite skipn_length; lia).
  set (d1 := firstn (n * nb) data) in *. set (d2 := skipn (n * nb) data) in *. clearbody d1 d2. subst data. apply Forall2_app.
  - eapply F2_imp; [|apply IH; auto]. cbn beta. intros [j b] o H. cbn [fst snd] in *. rewrite nth_error_app1; auto. apply nth_error_Some. congruence.
  - apply F2_intro; [rewrite map_length, seq_length; auto|]. intros i y z Ey Ez. assert (i < nb) by (rewrite <- L2; apply nth_error_Some; congruence). rewrite nth_error_map, (nth_error_nth' _ 0) in Ey by (rewrite seq_length; auto). rewrite seq_nth in Ey by auto.
    injection Ey as <-. cbn [fst snd]. rewrite nth_error_app2 by lia. rewrite L1. match goal with |- nth_error _ ?k = _ => replace k with i by (cbn [plus]; lia) end. exact Ez.
Qed.
Lemma all_bins_eq files t bin nb : Forall (fun g => count_of g bin = nb) files -> all_bins_of files t bin = flat_map (fun x : ncfile * nat => map (fun b => (x, b)) (seq 0 nb)) (all_points_of files t).
Proof.
  induction 1 as [|g files H F IH]; [reflexivity|]. unfold all_bins_of, all_points_of in *. cbn [flat_map]. rewrite flat_map_app, IH, H. f_equal. rewrite !flat_map_concat_map, map_map. reflexivity.
Qed.

Section Raf.
Variable float_of : str -> option Q.
Variable convert : str -> option attr -> res (Q -> Q).
Notation reads := (reads float_of). Notation reads_height := (reads_height float_of).
Notation own_row := (own_row float_of convert). Notation own_bin := (own_bin float_of convert).
Notation read_raf := (read_raf float_of convert). Notation create_data_object := (create_data_object float_of convert).

(** what a successful reading went through *)
Lemma create_parts f rest name d0 : create_data_object (f :: rest) name = Ok d0 ->
  exists s cs aux cs' vs a, select float_of (f :: rest) = Ok s /\ create_coordinates_list convert (f :: rest) s = Ok cs /\ find_auxiliary_coordinate f s name = Ok aux /\
    match aux with None => Ok cs | Some a => bind (get_coord cs (by_std (lit "time"))) (fun t => add_aux_coordinate cs f a (length (c_points t))) end = Ok cs' /\
    Forall2 (fun g v => variable g name = Some v) (f :: rest) vs /\ concat_arrays (map array_of vs) = Ok a /\ d0 = mkU cs' (fst a) (snd a).
Proof.
  unfold RafModel.create_data_object. destruct (select float_of (f :: rest)) as [s|]; [|discriminate]. cbn [bind]. destruct (load (f :: rest) s (Some name)) as [ld|]; [|discriminate]. cbn [bind]. destruct (create_coordinates_list convert (f :: rest) s) as [cs|] eqn:C; [|discriminate]. cbn [bind].
  destruct (find_auxiliary_coordinate f s name) as [aux|] eqn:A; [|discriminate]. cbn [bind]. destruct (match aux with None => _ | Some _ => _ end) as [cs'|] eqn:C'; [|discriminate]. cbn [bind]. destruct (column (f :: rest) name) as [vs|] eqn:V; [|discriminate]. cbn [bind].
  destruct (concat_arrays (map array_of vs)) as [a|] eqn:CA; [|discriminate]. cbn [bind]. intros [= <-]. apply column_ok in V. exists s, cs, aux, cs', vs, a. repeat (split; [solve [auto]|]). reflexivity.
Qed.
Lemma known_names files s t la lo al p d : serves float_of files s t la lo al p ->
  In d (opt_list (s_lat s) ++ opt_list (s_lon s) ++ opt_list (s_alt s) ++ opt_list (s_pressure s) ++ s_time_dims s) <-> la = In_variable d \/ lo = In_variable d \/ al = In_variable d \/ In d p \/ In d (s_time_dims s).
Proof.
  intros (_ & EP & LL & AL). rewrite !in_app_iff, EP.
  assert (H1 : In d (opt_list (s_lat s)) <-> la = In_variable d). { destruct LL as [(n & m & -> & _ & _ & -> & _)|(-> & _ & -> & _)]; cbn; [split; [intros [->|[]]; auto|intros [= ->]; auto]|split; [tauto|discriminate]]. }
  assert (H2 : In d (opt_list (s_lon s)) <-> lo = In_variable d). { destruct LL as [(n & m & _ & -> & _ & _ & ->)|(_ & -> & _ & -> & _)]; cbn; [split; [intros [->|[]]; auto|intros [= ->]; auto]|split; [tauto|discriminate]]. }
  assert (H3 : In d (opt_list (s_alt s)) <-> al = In_variable d). { destruct AL as [(n & -> & -> & _)|[(-> & -> & _)|(-> & -> & _)]]; cbn; [split; [intros [->|[]]; auto|intros [= ->]; auto]|split; [tauto|discriminate]..]. }
  rewrite H1, H2, H3. tauto.
Qed.
Lemma sound_parts f rest name d0 t la lo al p : create_data_object (f :: rest) name = Ok d0 -> described f t la lo al -> pressure_named f p ->
  exists s cs aux cs' vs a, serves float_of (f :: rest) s t la lo al p /\ stamped (f :: rest) s /\ (exists vt, variable f t = Some vt /\ s_time_dims s = v_dims vt) /\
    create_coordinates_list convert (f :: rest) s = Ok cs /\ find_auxiliary_coordinate f s name = Ok aux /\
    match aux with None => Ok cs | Some a => bind (get_coord cs (by_std (lit "time"))) (fun t => add_aux_coordinate cs f a (length (c_points t))) end = Ok cs' /\
    Forall2 (fun g v => variable g name = Some v) (f :: rest) vs /\ concat_arrays (map array_of vs) = Ok a /\ d0 = mkU cs' (fst a) (snd a).
Proof.
  intros E D P. destruct (create_parts _ _ _ _ E) as (s & cs & aux & cs' & vs & a & S & H). destruct (select_sound float_of f rest s S) as (t' & la' & lo' & al' & p' & D' & P' & SV & ST & TM). destruct (described_unique _ _ _ _ _ _ _ _ _ D D') as (-> & -> & -> & ->).
  rewrite (pressure_unique _ _ _ P P'). exists s, cs, aux, cs', vs, a. split; [exact SV|]. split; [exact ST|]. split; [|exact H]. destruct (TM f rest eq_refl) as (v & Ev & Ed). destruct SV as (<- & _). exists v. auto.
Qed.
Lemma times_there files s t la lo al p cs : create_coordinates_list convert files s = Ok cs -> serves float_of files s t la lo al p -> Forall (fun f => variable f t <> None) files.
Proof.
  unfold create_coordinates_list. intros E (<- & _). destruct (column files (s_time s)) as [ts|] eqn:C; [|discriminate]. apply column_ok in C. clear - C. induction C; constructor; auto. congruence.
Qed.
Lemma rows_plain0 f rest name d0 t la lo al p : create_data_object (f :: rest) name = Ok d0 -> described f t la lo al -> pressure_named f p -> Forall well_formed (f :: rest) -> stamps_alike (f :: rest) ->
  Forall (fun g => source_on_times g t la /\ source_on_times g t lo /\ source_on_times g t al /\ (forall n, In n p -> on_times g t n) /\ on_times g t name) (f :: rest) ->
  exists d, post_process d0 = Ok d /\ map c_std (u_coords d) = std_names p /\ exists raw, Forall2 (own_row t la lo al p name) (all_points_of (f :: rest) t) raw /\ rows d = filter located raw.
Proof.
  intros C D P W SA ON.
  destruct (sound_parts _ _ _ _ _ _ _ _ _ C D P) as (s & cs & aux & cs' & vs & a & SV & ST & (vt & Et & Ed) & CC & FA & CS & V & CA & ->).
  assert (ON' : Forall (fun g => source_on_times g t la /\ source_on_times g t lo /\ source_on_times g t al /\ forall n, In n p -> on_times g t n) (f :: rest)) by (eapply Forall_impl; [|exact ON]; cbn; tauto).
  assert (ONN : Forall (fun g => on_times g t name) (f :: rest)) by (eapply Forall_impl; [|exact ON]; cbn; tauto).
  destruct (coordinates_sound float_of convert (f :: rest) s t la lo al p cs CC SV ST SA W ON') as [COL STD]. pose proof (times_there _ _ _ _ _ _ _ _ CC SV) as TN.
  assert (aux = None).
  { unfold find_auxiliary_coordinate in FA. rewrite var_of_eq in FA. pose proof (F2inv _ _ _ _ V) as (v0 & vs' & -> & Ev0 & _). rewrite Ev0 in FA. apply Finv in ONN. destruct ONN as [O1 _]. destruct (O1 vt v0 Et Ev0) as [DD _].
    match type of FA with match ?F with _ => _ end = _ => replace F with (@nil str) in FA; [injection FA as <-; reflexivity|] end. symmetry. assert (KN : forall d, In d (v_dims v0) -> In d (opt_list (s_lat s) ++ opt_list (s_lon s) ++ opt_list (s_alt s) ++ opt_list (s_pressure s) ++ s_time_dims s)).
    { intros d1 Hd. rewrite Ed, <- DD, !in_app_iff. auto. }
    clear - KN. induction (v_dims v0) as [|d1 l IH]; [reflexivity|]. cbn [filter]. replace (existsb (str_eqb d1) _) with true; [cbn [negb]; apply IH; intros; apply KN; right; auto|]. symmetry. apply existsb_exists. exists d1. split; [apply KN; left; auto|apply str_eqb_refl]. }
  subst aux. injection CS as <-. assert (MV : map snd (map array_of vs) = map v_data vs) by (rewrite map_map; reflexivity). rewrite (concat_arrays_data _ _ CA), MV.
  assert (VV : Forall2 (fun fj o => found reads (In_variable name) (fst fj) (snd fj) o) (all_points_of (f :: rest) t) (concat (map v_data vs))) by (apply variable_column; auto).
  pose proof (columns_aligned _ _ _ _ (fst a) _ COL VV) as AL. destruct (post_process_spec _ AL) as (d' & E' & _ & R & ID). exists d'. split; [exact E'|]. split.
  - cbn [u_coords] in ID. rewrite <- STD. apply (f_equal (map (fun i : option str * str * str * str => fst (fst (fst i))))) in ID. rewrite !map_map in ID. exact ID.
  - exists (rows (mkU cs (fst a) (concat (map v_data vs)))). split; [|exact R]. eapply F2_imp; [|apply (columns_rows _ _ _ _ (fst a) _ COL VV)]. cbn beta. intros [g j] r [H1 H2]. split; [apply (position_of_columns float_of convert); exact H1|exact H2].
Qed.
Theorem rows_plain f rest name d t la lo al p : read_raf (f :: rest) name = Ok d -> described f t la lo al -> pressure_named f p -> Forall well_formed (f :: rest) -> stamps_alike (f :: rest) ->
  Forall (fun g => source_on_times g t la /\ source_on_times g t lo /\ source_on_times g t al /\ (forall n, In n p -> on_times g t n) /\ on_times g t name) (f :: rest) ->
  map c_std (u_coords d) = std_names p /\ exists raw, Forall2 (own_row t la lo al p name) (all_points_of (f :: rest) t) raw /\ rows d = filter located raw.
Proof.
  intros E D P W SA ON. unfold RafModel.read_raf in E. destruct (create_data_object (f :: rest) name) as [d0|] eqn:C; [|discriminate]. cbn [bind] in E.
  destruct (rows_plain0 _ _ _ _ _ _ _ _ _ C D P W SA ON) as (d' & E' & H). rewrite E' in E. injection E as <-. exact H.
Qed.
Lemma get_coord_in cs q c : get_coord cs q = Ok c -> In c cs.
Proof.
  unfold get_coord. assert (G : forall q', match get_coords cs q' with [c0] => Ok c0 | _ => Raises CoordinateNotFoundError end = Ok c -> In c cs).
  { intros q' E. assert (H : In c (get_coords cs q')); [destruct (get_coords cs q') as [|c0 [|]]; try discriminate E; injection E as <-; left; reflexivity|apply filter_In in H; tauto]. }
  intros E. destruct (get_coords cs q) as [|c0 l] eqn:F; cbn zeta in E; [apply (G _ E)|apply (G q); rewrite F; exact E].
Qed.
Lemma first_on_ok d vars n : first_on d vars = Ok (Some n) -> exists before v r after, vars = before ++ (n, v) :: after /\ v_dims v = d :: r /\ forall m w, In (m, w) before -> exists d' r', v_dims w = d' :: r' /\ d' <> d.
Proof.
  induction vars as [|[m w] vars IH]; cbn [first_on]; [discriminate|]. destruct (v_dims w) as [|d0 r] eqn:Dw; [discriminate|]. destruct (str_eqb d0 d) eqn:E.
  - apply str_eqb_eq in E. subst d0. intros [= <-]. exists [], w, r, vars. split; [reflexivity|]. split; auto. intros ? ? [].
  - apply str_eqb_neq in E. intros H. destruct (IH H) as (before & v & r' & after & -> & Ev & HB). exists ((m, w) :: before), v, r', after. split; [reflexivity|]. split; auto. intros m' w' [[= <- <-]|Hin]; [exists d0, r; auto|apply (HB m'); auto].
Qed.
Lemma first_on_unique d before n v r after : v_dims v = d :: r -> (forall m w, In (m, w) before -> exists d' r', v_dims w = d' :: r' /\ d' <> d) -> first_on d (before ++ (n, v) :: after) = Ok (Some n).
Proof.
  intros Ev. induction before as [|[m w] before IH]; intros H; cbn [app first_on]; [rewrite Ev, str_eqb_refl; auto|]. destruct (H m w (or_introl eq_refl)) as (d' & r' & -> & ND). apply str_eqb_neq in ND. rewrite ND. apply IH. intros. eapply H. right. eauto.
Qed.
(** the variable has one more dimension, that of the bins *)
Theorem rows_bins f rest name bin dn nb d t la lo al p vt vn : read_raf (f :: rest) name = Ok d -> described f t la lo al -> pressure_named f p -> Forall well_formed (f :: rest) -> stamps_alike (f :: rest) ->
  Forall (fun g => source_on_times g t la /\ source_on_times g t lo /\ source_on_times g t al /\ (forall n, In n p -> on_times g t n)) (f :: rest) ->
  variable f t = Some vt -> variable f name = Some vn -> v_dims vn = v_dims vt ++ [dn] -> ~ In dn (v_dims vt) -> ~ In dn p -> (forall s, In s [la; lo; al] -> s <> In_variable dn) -> bin_variable f dn bin ->
  (forall g, In g (f :: rest) -> option_map v_data (variable g bin) = option_map v_data (variable f bin) /\ count_of g bin = nb /\ forall v w, variable g t = Some v -> variable g name = Some w -> v_shape w = v_shape v ++ [nb]) ->
  map c_std (u_coords d) = std_names p ++ [match variable f bin with Some w => v_std w | None => None end] /\
  exists raw, Forall2 (own_bin t la lo al p bin name) (all_bins_of (f :: rest) t bin) raw /\ rows d = filter located raw.
Proof.
  intros E D P W SA ON Et En DD ND NP NS BV SAME. unfold RafModel.read_raf in E. destruct (create_data_object (f :: rest) name) as [d0|] eqn:C; [|discriminate]. cbn [bind] in E.
  destruct (sound_parts _ _ _ _ _ _ _ _ _ C D P) as (s & cs & aux & cs' & vs & a & SV & ST & (vt' & Et' & Ed) & CC & FA & CS & V & CA & ->). rewrite Et in Et'. injection Et' as <-.
  destruct (coordinates_sound float_of convert (f :: rest) s t la lo al p cs CC SV ST SA W ON) as [COL STD]. pose proof (times_there _ _ _ _ _ _ _ _ CC SV) as TN.
  assert (AUX : aux = Some bin).
  { unfold find_auxiliary_coordinate in FA. rewrite var_of_eq, En in FA.
    match type of FA with match ?F with _ => _ end = _ => replace F with [dn] in FA end.
    - destruct BV as [[H ->]|(H & before & v & r & after & EF & Ev & HB)].
      + apply has_var_true in H. rewrite H in FA. congruence.
      + apply has_var_false in H. rewrite H, EF, (first_on_unique dn before bin v r after Ev HB) in FA. congruence.
    - rewrite DD, filter_app. cbn [filter]. replace (existsb (str_eqb dn) _) with false.
      + cbn [negb]. replace (filter _ (v_dims vt)) with (@nil str); [reflexivity|]. symmetry. assert (KN : forall d1, In d1 (v_dims vt) -> In d1 (opt_list (s_lat s) ++ opt_list (s_lon s) ++ opt_list (s_alt s) ++ opt_list (s_pressure s) ++ s_time_dims s)).
        { intros d1 Hd. rewrite Ed, !in_app_iff. auto. }
        clear - KN. induction (v_dims vt) as [|d1 l IH]; [reflexivity|]. cbn [filter]. replace (existsb (str_eqb d1) _) with true; [cbn [negb]; apply IH; intros; apply KN; right; auto|]. symmetry. apply existsb_exists. exists d1. split; [apply KN; left; auto|apply str_eqb_refl].
      + symmetry. apply not_true_is_false. intros X. apply existsb_exists in X. destruct X as (x & Hx & Ex). apply str_eqb_eq in Ex. subst x. apply (known_names _ _ _ _ _ _ _ _ SV) in Hx. rewrite Ed in Hx. destruct Hx as [H|[H|[H|[H|H]]]]; [apply (NS la)|apply (NS lo)|apply (NS al)|..]; cbn; auto. }
  subst aux. destruct (get_coord cs (by_std (lit "time"))) as [tc|] eqn:GC; [|discriminate]. apply get_coord_in in GC. cbn [bind] in CS.
  unfold add_aux_coordinate in CS. rewrite var_of_eq in CS. destruct (variable f bin) as [vb|] eqn:EB; [|discriminate].
  assert (CS' : Ok (map (stretch_coord (length (v_data vb))) cs ++ [mkCoord (v_std vb) (v_long vb) bin [] [length (c_points tc); length (v_data vb)] (concat (repeat (v_data vb) (length (c_points tc))))]) = Ok cs').
  { destruct (v_shape vb) as [|n1 [|n2 [|n3 l3]]]; [exact CS|destruct n1 as [|[|]]; exact CS|destruct n1 as [|[|]]; first [exact CS|discriminate CS]|destruct n1 as [|[|]]; discriminate CS]. }
  clear CS. injection CS' as <-.
  assert (NB : length (v_data vb) = nb). { destruct (SAME f (or_introl eq_refl)) as (_ & H & _). unfold count_of in H. rewrite EB in H. exact H. }
  assert (LT : length (c_points tc) = length (all_points_of (f :: rest) t)). { apply In_nth_error in GC. destruct GC as (i & Hi). destruct (F2_nth_l _ _ _ COL _ _ Hi) as (PP & _ & HP). apply forall2_len in HP. congruence. }
  set (pts := all_points_of (f :: rest) t) in *. set (pts2 := flat_map (fun x : ncfile * nat => map (fun b => (x, b)) (seq 0 nb)) pts).
  assert (AB : all_bins_of (f :: rest) t bin = pts2). { apply all_bins_eq. apply Forall_forall. intros g Hg. apply SAME. exact Hg. }
  assert (COL2 : columns_are pts2 (map (stretch_coord (length (v_data vb))) cs ++ [mkCoord (v_std vb) (v_long vb) bin [] [length (c_points tc); length (v_data vb)] (concat (repeat (v_data vb) (length (c_points tc))))])
            (map (fun (PP : ncfile * nat -> option Q -> Prop) xb o => PP (fst xb) o) (position_columns float_of convert t la lo al p) ++ [fun xb o => nth_error (v_data vb) (snd xb) = Some o])).
  { unfold columns_are. apply Forall2_app.
    - clear - COL NB. induction COL as [|c PP cs Ps H F IH]; constructor; auto. cbn [stretch_coord set_points c_points]. rewrite NB. apply stretch_F2. exact H.
    - constructor; [|constructor]. cbn [c_points]. rewrite LT. unfold pts2. rewrite <- NB. apply bins_F2. }
  assert (MV : map snd (map array_of vs) = map v_data vs) by (rewrite map_map; reflexivity). rewrite (concat_arrays_data _ _ CA), MV in E.
  assert (VV : Forall2 (fun fjb o => exists v, variable (fst (fst fjb)) name = Some v /\ nth_error (v_data v) (snd (fst fjb) * nb + snd fjb) = Some o) pts2 (concat (map v_data vs))).
  { unfold pts2, pts. clear - V SAME TN W. revert V SAME TN W. generalize (f :: rest) as files. intros files V. induction V as [|g v files vs Ev V IH]; intros SAME TN W; [constructor|]. apply Finv in TN. apply Finv in W. destruct TN as [T1 T2]. destruct W as [W1 W2].
    unfold all_points_of. cbn [flat_map map concat]. rewrite flat_map_app. apply Forall2_app; [|apply IH; auto; intros g' Hg'; apply SAME; right; auto].
    destruct (variable g t) as [vt|] eqn:Et; [|congruence]. destruct (SAME g (or_introl eq_refl)) as (_ & _ & SH). specialize (SH vt v Et Ev). unfold count_of. rewrite Et.
    assert (L : length (v_data v) = length (v_data vt) * nb). { rewrite (W1 _ _ Et), (W1 _ _ Ev), SH. clear. induction (v_shape vt) as [|x l IH]; cbn; [lia|rewrite IH; lia]. }
    pose proof (grid_F2 nb _ (v_data v) L) as G. clear - G Ev. revert G. generalize (seq 0 (length (v_data vt))) as js. intros js.
    replace (flat_map (fun x : ncfile * nat => map (fun b => (x, b)) (seq 0 nb)) (map (fun j => (g, j)) js)) with (map (fun jb : nat * nat => (g, fst jb, snd jb)) (flat_map (fun j => map (fun b => (j, b)) (seq 0 nb)) js)).
    - generalize (flat_map (fun j => map (fun b => (j, b)) (seq 0 nb)) js) as l. intros l G. assert (G' : forall data0 l m, Forall2 (fun jb o => nth_error data0 (fst jb * nb + snd jb) = Some o) l m -> data0 = v_data v ->
        Forall2 (fun (fjb : ncfile * nat * nat) o => exists v0, variable (fst (fst fjb)) name = Some v0 /\ nth_error (v_data v0) (snd (fst fjb) * nb + snd fjb) = Some o) (map (fun jb : nat * nat => (g, fst jb, snd jb)) l) m).
      { intros data0 l0 m H ->. induction H as [|[j b] o l0 m H F IH]; constructor; auto. cbn [fst snd] in *. exists v. auto. }
      apply (G' (v_data v)); auto.
    - rewrite !flat_map_concat_map, concat_map, !map_map. f_equal. apply map_ext. intros j. rewrite map_map. reflexivity. }
  pose proof (columns_aligned _ _ _ _ (fst a) _ COL2 VV) as AL. destruct (post_process_spec _ AL) as (d' & E' & _ & R & ID). rewrite E' in E. injection E as <-. split.
  - cbn [u_coords] in ID. apply (f_equal (map (fun i : option str * str * str * str => fst (fst (fst i))))) in ID. rewrite !map_map in ID. etransitivity; [exact ID|]. rewrite map_app, map_map, <- STD. reflexivity.
  - eexists. split; [|exact R]. rewrite AB. eapply F2_imp; [|eapply F2_imp; [|apply F2_in; apply (columns_rows _ _ _ _ (fst a) _ COL2 VV)]]; [intros x y H; exact H|]. cbn beta. intros [[g j] b] r (HIN & H1 & v & Ev & HV). cbn [fst snd] in Ev, HV.
    apply Forall2_app_inv_l in H1. destruct H1 as (pos & l2 & H1 & H2 & EP). apply F2inv in H2. destruct H2 as (x & l3 & -> & Hx & H3). inversion H3; subst l3. cbn [snd] in Hx.
    assert (Hg : In g (f :: rest)). { unfold pts2 in HIN. apply in_flat_map in HIN. destruct HIN as ([g' j'] & Hin & Hb). apply in_map_iff in Hb. destruct Hb as (b' & [= <- <- <-] & _). unfold pts, all_points_of in Hin. apply in_flat_map in Hin. destruct Hin as (g2 & Hg2 & Hj). apply in_map_iff in Hj. destruct Hj as (j2 & [= <- <-] & _). exact Hg2. }
    destruct (SAME g Hg) as (SD & SC & _). destruct (variable g bin) as [wb|] eqn:EW; [|discriminate]. cbn [option_map] in SD. injection SD as SD.
    exists pos, x, v, wb. split; [exact EP|]. split; [|split; [exact EW|split; [rewrite SD; exact Hx|split; [exact Ev|rewrite SD, NB; exact HV]]]].
    apply (position_of_columns float_of convert). clear - H1. revert pos H1. generalize (position_columns float_of convert t la lo al p) as Ps. intros Ps. induction Ps as [|PP Ps IH]; intros pos H; [inversion H; constructor|]. cbn [map] in H. apply F2inv in H. destruct H as (o & pos' & -> & Ho & H). constructor; auto.
Qed.
End Raf.
