(** Proofs for C35: the whole aggregation. *)
From Verif Require Import Base PyStr QBase LonModel LonSpec LonProofs DateModel DateProofs FileListModel FileListProofs UngrModel UngrSpec UngrProofs SubsetModel SubsetSpec SubsetProofs Subset2Proofs GridIndexModel GridIndexSpec GridIndexProofs IndexProofs UtilProofs AggModel AggSpec AggProofs Agg2Proofs Agg3Proofs.
From Coq Require Import Lqa Lia.
Open Scope nat_scope.
Notation length := List.length.

(** ** Requests by coordinate *)
Definition named_rq (cs : list coord) (rs : list (nat * request)) : list (str * request) := map (fun kr => (cname cs (fst kr), snd kr)) rs.
Lemma cname_in cs k : k < length cs -> In (cname cs k) (map c_name cs).
Proof. intros H. unfold cname. destruct (nth_error cs k) as [c|] eqn:E; [|apply nth_error_None in E; lia]. apply in_map. eapply nth_error_In; eauto. Qed.
Lemma cname_inj cs i j : NoDup (map c_name cs) -> i < length cs -> j < length cs -> cname cs i = cname cs j -> i = j.
Proof.
  intros N Hi Hj E. unfold cname in E. destruct (nth_error cs i) as [a|] eqn:Ea; [|apply nth_error_None in Ea; lia]. destruct (nth_error cs j) as [b|] eqn:Eb; [|apply nth_error_None in Eb; lia].
  apply (proj1 (NoDup_nth_error (map c_name cs)) N); [rewrite map_length; auto|]. rewrite !nth_error_map, Ea, Eb. cbn. congruence.
Qed.
Lemma named_rq_get cs rs k : NoDup (map c_name cs) -> NoDup (map fst rs) -> Forall (fun kr : nat * request => fst kr < length cs) rs -> k < length cs ->
  (forall r, In (k, r) rs -> dict_get (named_rq cs rs) (cname cs k) = Some r) /\ (~ In k (map fst rs) -> dict_get (named_rq cs rs) (cname cs k) = None).
Proof.
  intros N. induction rs as [|[j r0] rs IH]; intros ND HF Hk; [split; [contradiction|reflexivity]|]. cbn in ND. apply NoDup_cons_iff in ND. destruct ND as [NI ND]. inversion HF as [|? ? H1 H2]; subst. cbn [fst] in H1.
  destruct (IH ND H2 Hk) as [I1 I2]. unfold named_rq. cbn [map dict_get fst snd]. destruct (str_eq_dec (cname cs j) (cname cs k)) as [E|E].
  - apply cname_inj in E; auto. subst j. split; [|intros C; exfalso; apply C; left; auto]. intros r [[= ->]|H]; auto. exfalso. apply NI. apply (in_map fst _ _ H).
  - split; [|intros C; apply I2; intros H; apply C; right; auto]. intros r [[= -> ->]|H]; [contradiction|]. apply I1. auto.
Qed.
(** grid_spec *)
Definition resolves_to (cs : list coord) (g : gridspec) (kr : nat * request) : Prop :=
  exists c, addresses cs (gs_name g) (fst kr) /\ nth_error cs (fst kr) = Some c /\ gs_step g = Some (rq_step (snd kr)) /\
    default_to (gs_start g) (qmin_of (somes (c_points c))) = Ok (rq_start (snd kr)) /\ default_to (gs_stop g) (qmax_of (somes (c_points c))) = Ok (rq_stop (snd kr)).
Lemma grid_spec_resolved cs gs rs : own_names cs -> Forall2 (resolves_to cs) gs rs -> NoDup (map fst rs) -> grid_spec cs gs = Ok (named_rq cs rs) /\ Forall (fun kr : nat * request => fst kr < length cs) rs.
Proof.
  intros HO HF. unfold grid_spec. assert (G : forall done, Forall (fun kr : nat * request => fst kr < length cs) done -> NoDup (map fst (done ++ rs)) ->
    fold_left (fun k g => bind k (fun k => add_grid cs k g)) gs (Ok (named_rq cs done)) = Ok (named_rq cs (done ++ rs)) /\ Forall (fun kr : nat * request => fst kr < length cs) (done ++ rs)).
  { induction HF as [|g [k [a b s]] gs rs HR HF IH]; intros done HD ND; [rewrite app_nil_r; auto|]. destruct HR as (c & HA & Hk & HS & Ea & Eb). cbn [fst snd rq_step rq_start rq_stop] in *.
    cbn [fold_left bind]. unfold add_grid at 2. rewrite (find_addressed cs _ k c HO HA Hk). cbn [bind]. rewrite Ea. cbn [bind]. rewrite Eb. cbn [bind]. rewrite HS.
    assert (LK : k < length cs) by (apply nth_error_Some; congruence).
    assert (FR : dict_set (named_rq cs done) (c_name c) (mkReq a b s) = named_rq cs (done ++ [(k, mkReq a b s)])).
    { rewrite dict_set_fresh; [unfold named_rq; rewrite map_app; cbn [map fst snd]; unfold cname at 3; rewrite Hk; reflexivity|].
      unfold named_rq. rewrite map_map, in_map_iff. cbn [fst]. intros ([j r] & E & HI). cbn [fst] in E. replace (c_name c) with (cname cs k) in E by (unfold cname; rewrite Hk; reflexivity).
      rewrite Forall_forall in HD. apply cname_inj in E; [|apply HO|apply (HD _ HI)|auto]. subst j. rewrite map_app in ND. cbn [map fst] in ND. apply NoDup_remove_2 in ND. apply ND, in_or_app. left. apply (in_map fst _ _ HI). }
    rewrite FR. assert (AE : done ++ (k, mkReq a b s) :: rs = (done ++ [(k, mkReq a b s)]) ++ rs) by (rewrite <- app_assoc; reflexivity).
    rewrite AE in *. apply IH; auto. apply Forall_app. split; auto. }
  intros ND. apply (G []); [constructor|auto].
Qed.
Lemma Qmin_le_spec l m m' : smallest l m -> smallest l m' -> (m == m')%Q.
Proof. intros [(x & X1 & X2) H] [(y & Y1 & Y2) H']. specialize (H y Y1). specialize (H' x X1). lra. Qed.
Lemma Qmax_ge_spec l m m' : largest l m -> largest l m' -> (m == m')%Q.
Proof. intros [(x & X1 & X2) H] [(y & Y1 & Y2) H']. specialize (H y Y1). specialize (H' x X1). lra. Qed.
Lemma smallest_of l : somes l <> [] -> exists m, qmin_of (somes l) = Ok m /\ smallest l m.
Proof.
  intros H. destruct (qmin_of (somes l)) as [m|e] eqn:E; [|destruct (somes l); [congruence|discriminate]]. exists m. split; auto. destruct (qmin_spec _ _ E) as [A (x & B & C)].
  split; [exists x; split; [apply in_somes; auto|symmetry; auto]|]. intros y Hy. apply A, in_somes. auto.
Qed.
Lemma largest_of l : somes l <> [] -> exists m, qmax_of (somes l) = Ok m /\ largest l m.
Proof.
  intros H. destruct (qmax_of (somes l)) as [m|e] eqn:E; [|destruct (somes l); [congruence|discriminate]]. exists m. split; auto. destruct (qmax_spec _ _ E) as [A (x & B & C)].
  split; [exists x; split; [apply in_somes; auto|symmetry; auto]|]. intros y Hy. apply A, in_somes. auto.
Qed.
Definition same_request (a b : nat * request) : Prop := fst a = fst b /\ (rq_start (snd a) == rq_start (snd b))%Q /\ (rq_stop (snd a) == rq_stop (snd b))%Q /\ rq_step (snd a) = rq_step (snd b).
Lemma asks_resolved cs gs rs : (forall c, In c cs -> somes (c_points c) <> []) -> Forall2 (asks cs) gs rs -> exists rs', Forall2 (resolves_to cs) gs rs' /\ Forall2 same_request rs' rs.
Proof.
  intros NE HF. induction HF as [|g [k [a b s]] gs rs HA HF (rs' & R1 & R2)]; [exists []; split; constructor|]. destruct HA as (HA & HS & c & Hc & Ha & Hb). cbn [fst snd rq_step rq_start rq_stop] in *.
  assert (NEc : somes (c_points c) <> []) by (apply NE; eapply nth_error_In; eauto). destruct (smallest_of _ NEc) as (m & Em & Sm). destruct (largest_of _ NEc) as (M & EM & SM).
  exists ((k, mkReq (match gs_start g with Some a => a | None => m end) (match gs_stop g with Some b => b | None => M end) s) :: rs'). split; constructor; auto.
  - exists c. cbn [fst snd rq_step rq_start rq_stop]. split; auto. split; auto. split; auto. rewrite Em, EM. destruct (gs_start g), (gs_stop g); auto.
  - split; [reflexivity|]. cbn [fst snd rq_step rq_start rq_stop]. split; [destruct (gs_start g); [subst; reflexivity|eapply Qmin_le_spec; eauto]|]. split; auto. destruct (gs_stop g); [subst; reflexivity|eapply Qmax_ge_spec; eauto].
Qed.
(** new_coords *)
Lemma dict_get_filter (spec : list (str * request)) n m : n <> m -> dict_get (filter (fun kv => negb (str_eqb (fst kv) m)) spec) n = dict_get spec n.
Proof.
  intros H. induction spec as [|[k v] spec IH]; [reflexivity|]. cbn [filter fst]. unfold str_eqb in *. destruct (str_eq_dec k m) as [->|E]; cbn [negb dict_get].
  - rewrite IH. destruct (str_eq_dec m n); [congruence|reflexivity].
  - rewrite IH. reflexivity.
Qed.
Definition made (spec : list (str * request)) (c : coord) (g : gaxis) : Prop := match dict_get spec (c_name c) with Some r => partially_collapsed c r = Ok g | None => fully_collapsed c = Ok g end.
Lemma new_coords_spec cs : NoDup (map c_name cs) -> forall spec grid, Forall2 (made spec) cs grid -> (forall k, In k (map fst spec) -> In k (map c_name cs)) -> aggregation_grid cs spec = Ok grid.
Proof.
  intros N spec grid HF HK. unfold aggregation_grid.
  assert (G : forall cs, NoDup (map c_name cs) -> forall grid spec, Forall2 (made spec) cs grid -> new_coords cs spec = Ok (grid, filter (fun kv => negb (if in_dec str_eq_dec (fst kv) (map c_name cs) then true else false)) spec)).
  { clear. induction cs as [|c cs IH]; intros N grid spec HF.
    - inversion HF. cbn. f_equal. f_equal. symmetry. clear. induction spec as [|x l IH]; [reflexivity|]. cbn. f_equal. exact IH.
    - inversion HF as [|? g ? grid' H1 H2]; subst. cbn in N. apply NoDup_cons_iff in N. destruct N as [NI N]. cbn [new_coords]. unfold made in H1.
      assert (E : match dict_get spec (c_name c) with Some g => partially_collapsed c g | None => fully_collapsed c end = Ok g) by (destruct (dict_get spec (c_name c)); auto). rewrite E. cbn [bind].
      rewrite (IH N grid'); cbn [bind fst snd].
      + f_equal. f_equal. clear. induction spec as [|[k v] spec IH]; [reflexivity|]. cbn [filter fst map] in *. unfold str_eqb in *. destruct (str_eq_dec k (c_name c)) as [->|E].
        * destruct (in_dec str_eq_dec (c_name c) (c_name c :: map c_name cs)) as [_|C]; [|exfalso; apply C; left; auto]. exact IH.
        * cbn [negb filter fst]. destruct (in_dec str_eq_dec k (map c_name cs)) as [I|I], (in_dec str_eq_dec k (c_name c :: map c_name cs)) as [J|J]; cbn [negb].
          -- exact IH. -- exfalso; apply J; right; auto. -- destruct J as [J|J]; [congruence|contradiction]. -- f_equal. exact IH.
      + clear - H2 NI. induction H2 as [|x g l grid HM H2 IH]; constructor; auto.
        * unfold made in *. rewrite dict_get_filter; auto. intros C. apply NI. rewrite <- C. left; auto.
        * apply IH. intros C. apply NI. right. auto. }
  rewrite (G cs N grid spec HF). cbn [bind fst snd].
  assert (Z : filter (fun kv : str * request => negb (if in_dec str_eq_dec (fst kv) (map c_name cs) then true else false)) spec = []).
  { clear - HK. induction spec as [|[k v] spec IH]; [reflexivity|]. cbn [filter fst]. destruct (in_dec str_eq_dec k (map c_name cs)) as [I|I]; cbn [negb].
    - apply IH. intros; apply HK; right; auto. - exfalso. apply I, HK. left. auto. }
  rewrite Z. reflexivity.
Qed.
(** ** Success *)
Lemma lon_start_ok stds grid : Forall (fun g => gpoints g <> []) grid -> exists low, lon_start stds grid = Ok low.
Proof.
  intros H. unfold lon_start. assert (F : Forall (fun sg : option str * gaxis => gpoints (snd sg) <> []) (combine stds grid)).
  { apply Forall_forall. intros [s g] HI. apply in_combine_r in HI. rewrite Forall_forall in H. apply H. auto. }
  generalize (@None Q). induction F as [|[s g] l P F IH]; intros low; [exists low; reflexivity|]. cbn [fold_left bind fst snd] in *. destruct (std_eqb s (Some (lit "longitude"))); [|apply IH].
  destruct (find_longitude_range (gpoints g)) as [v|e] eqn:E; [cbn [bind]; apply IH|]. unfold find_longitude_range in E. destruct (gpoints g); [congruence|discriminate].
Qed.
Lemma map_res_all {A B} (f : A -> res B) l : (forall x, In x l -> exists y, f x = Ok y) -> exists r, map_res f l = Ok r /\ Forall2 (fun x y => f x = Ok y) l r.
Proof.
  intros H. induction l as [|x l IH]; [exists []; split; constructor|]. destruct (H x) as (y & E); [left; auto|]. destruct IH as (r & E2 & F); [intros; apply H; right; auto|]. exists (y :: r). split; [cbn [map_res]; rewrite E; cbn [bind]; rewrite E2; reflexivity|constructor; auto].
Qed.
Lemma own_unique cs : own_names cs -> unique_standard_names cs.
Proof. intros [_ H] i j a b n Hi Hj NE Ha Hb. apply (H i j a b); auto; congruence. Qed.

Section Whole.
Context {V : Type} (kernel : list Q -> list (option V)) (argsort : list Z -> list nat).
Hypothesis (HP : forall l, is_argsort l (argsort l)).

Lemma collocate_ok d grid : aligned d -> complete d -> own_names (u_coords d) -> u_values d <> [] -> has_latitude d -> length grid = length (u_coords d) -> Forall fine grid -> Forall (fun g => gpoints g <> []) grid ->
  exists out, collocate_grid kernel argsort (u_coords d) grid d = Ok out /\ length (ag_bounds out) = length (ag_dims out) /\
    forall j ci b, nth_error (ag_dims out) j = Some ci -> nth_error (ag_bounds out) j = Some b -> reported_bounds (nth ci (u_coords d) (mkCoord None [] [] [] [] [])) (nth ci grid (Whole 0)) = Ok b.
Proof.
  intros HA HC HO NV (cl & HL & SL) LG HF GN. pose proof (own_unique _ HO) as HU. unfold collocate_grid.
  assert (VL : view_length (mkView (coords_flattened (u_coords d)) (Some (u_values d))) = Ok (length (c_points cl))).
  { pose proof (flattened_at (u_coords d) 0 (lit "latitude") cl HU eq_refl HL SL) as FA. unfold view_length. cbn [w_coords]. destruct (coords_flattened (u_coords d)) as [|[x|] r]; cbn in FA; try discriminate. injection FA as ->. reflexivity. }
  rewrite VL. cbn [bind].
  set (stds := map c_std (u_coords d)). assert (US : unique_stds stds) by (apply unique_stds_of; auto).
  assert (SC : forall ci nm, has_name stds ci nm <-> exists c, nth_error (u_coords d) ci = Some c /\ c_std c = Some nm) by (intros; apply (stds_coord (u_coords d) d eq_refl)).
  destruct (coord_map_spec stds US standard_names (map (fun o => negb (is_missing o)) (find_standard_coords (u_coords d))) 0) as (m & EM & NDm & Hm).
  { apply nonempty_standard. } { repeat constructor; cbn; intuition discriminate. } { rewrite map_length. unfold find_standard_coords. rewrite map_length. reflexivity. }
  { intros k nm ci Hk Hn. apply SC in Hn. destruct Hn as (c & Hc & Hs). apply nth_error_nth. unfold find_standard_coords. rewrite map_map, nth_error_map. rewrite Hk. cbn [option_map].
    rewrite (lookup_found (u_coords d) nm c); auto; [apply nonempty_standard; eapply nth_error_In; eauto|eapply nth_error_In; eauto]. }
  rewrite EM. cbn [bind]. destruct (lon_start_ok stds grid GN) as (low & EL). rewrite EL. cbn [bind].
  assert (EN : forall h ci, In (h, ci) m -> exists nm c g, nth_error standard_names h = Some nm /\ nth_error (u_coords d) ci = Some c /\ c_std c = Some nm /\ nth_error grid ci = Some g).
  { intros h ci H. apply Hm in H. destruct H as (k & nm & -> & Hk & Hn). apply SC in Hn. destruct Hn as (c & Hc & Hs). exists nm, c. cbn.
    assert (L : ci < length grid) by (rewrite LG; apply nth_error_Some; congruence). destruct (nth_error grid ci) as [g|] eqn:Eg; [|apply nth_error_None in Eg; lia]. eauto 6. }
  set (cols := view_wrapped low (coords_flattened (u_coords d))). set (axes := map (fun hc : nat * nat => comparable (column cols (fst hc)) (nth (snd hc) grid (Whole 0))) m).
  set (pts := AggModel.grid_points m cols (u_values d)).
  assert (GA : Forall good_axis axes /\ Forall (fun a => decreasing a = false) axes).
  { unfold axes. rewrite !Forall_map. assert (X : forall hc, In hc m -> fine (nth (snd hc) grid (Whole 0))) by (intros [h ci] H; destruct (EN _ _ H) as (_ & _ & g & _ & _ & _ & Hg); rewrite Forall_forall in HF; apply HF, nth_In; apply nth_error_Some; cbn; congruence).
    split; apply Forall_forall; intros hc H; apply (comparable_fine (column cols (fst hc)) _ (X hc H)). }
  destruct GA as [GA DA]. assert (LA : Forall (fun p => length (pt_coords p) = length axes) pts) by (unfold pts, AggModel.grid_points, axes; rewrite Forall_map; apply Forall_forall; intros i _; cbn; rewrite !map_length; auto).
  assert (NE : pts <> []). { unfold pts, AggModel.grid_points. destruct (u_values d); [congruence|discriminate]. }
  destruct (deliveries_increasing axes pts _ GA DA NE LA (HP _)) as (ds & ED & _). rewrite ED. cbn [bind].
  set (sorted := sort_by (combine (map snd m) (seq 0 (length m)))).
  destruct (map_res_all (fun ci => reported_bounds (nth ci (u_coords d) (mkCoord None [] [] [] [] [])) (nth ci grid (Whole 0))) (map fst sorted)) as (b & EB & FB).
  { intros ci Hci. apply in_map_iff in Hci. destruct Hci as ([ci' shi] & E & HI). cbn in E. subst ci'.
    assert (X : In (ci, shi) (combine (map snd m) (seq 0 (length m)))) by (eapply Permutation.Permutation_in; [apply sort_perm|exact HI]). apply in_combine_l in X. apply in_map_iff in X. destruct X as ([h ci'] & E & HM). cbn in E. subst ci'.
    destruct (EN _ _ HM) as (nm & c & g & N1 & N2 & N3 & N4). rewrite (nth_error_nth _ _ _ N2), (nth_error_nth _ _ _ N4). destruct g as [a|mid]; [eexists; reflexivity|]. cbn [reported_bounds]. unfold start_end.
    assert (NEc : somes (c_points c) <> []). { assert (LC : length (c_points c) = length (u_values d)) by (unfold aligned in HA; rewrite Forall_forall in HA; apply HA; eapply nth_error_In; eauto). destruct (somes_all (c_points c)) as [LS _]; [intros j Hj; eapply complete_at; eauto|]. destruct (u_values d); [congruence|]. intros C. rewrite C in LS. cbn in LS, LC. lia. }
    destruct (smallest_of _ NEc) as (x & -> & _). destruct (largest_of _ NEc) as (y & -> & _). cbn [bind]. eexists; reflexivity. }
  rewrite EB. cbn [bind]. eexists. split; [reflexivity|]. cbn [ag_bounds ag_dims]. split; [symmetry; eapply Forall2_length; exact FB|].
  intros j ci bb H1 H2. clear - FB H1 H2. revert j H1 H2. induction FB; intros [|j]; cbn; intros H1 H2; try discriminate; [congruence|eauto].
Qed.


Theorem aggregate_core d gs rs : proper d -> all_located d -> rows d <> [] -> has_latitude d -> usual_longitudes d -> Forall2 (asks (u_coords d)) gs rs -> NoDup (map fst rs) -> Forall (fun kr => upwards (snd kr)) rs ->
  exists out, aggregate kernel argsort d gs = Ok out /\ standard_dims d (ag_dims out) /\ right_dimensions d rs out /\ right_values kernel d out /\ Forall fine (ag_axes out).
Proof.
  intros (HA & _ & HO) HC NE HLat HLon HAsk ND HUp. unfold aggregate. rewrite (aligned_complete d HA HC). cbn [bind].
  assert (NV : u_values d <> []) by (intros E; apply NE; unfold rows; rewrite E; reflexivity).
  assert (NEc : forall c, In c (u_coords d) -> somes (c_points c) <> []).
  { intros c Hc. assert (LC : length (c_points c) = length (u_values d)) by (unfold aligned in HA; rewrite Forall_forall in HA; apply HA; auto). apply In_nth_error in Hc. destruct Hc as (k & Hk).
    destruct (somes_all (c_points c)) as [LS _]; [intros j Hj; eapply complete_at; eauto|]. destruct (u_values d); [congruence|]. intros C. rewrite C in LS. cbn in LS, LC. lia. }
  destruct (asks_resolved _ gs rs NEc HAsk) as (rs' & R1 & R2).
  assert (FE : map fst rs' = map fst rs) by (clear - R2; induction R2 as [|? ? ? ? H]; cbn; [|destruct H]; congruence).
  assert (UP' : Forall (fun kr => upwards (snd kr)) rs').
  { clear - R2 HUp. induction R2 as [|x y l l' H R2 IH]; constructor; inversion HUp as [|? ? U1 U2]; subst; auto. destruct H as (_ & A & B & C). unfold upwards in *. rewrite A, B, C. auto. }
  assert (SAME : forall k r, In (k, r) rs -> exists r', In (k, r') rs' /\ (rq_start r' == rq_start r)%Q /\ (rq_stop r' == rq_stop r)%Q /\ rq_step r' = rq_step r).
  { clear - R2. induction R2 as [|[k' x] [k'' y] l l' H R2 IH]; intros k r; [contradiction|]. intros [[= -> ->]|HI].
    - destruct H as (A & B & C & D). cbn [fst snd] in *. subst. exists x. cbn; auto.
    - destruct (IH _ _ HI) as (r' & A & B). exists r'. cbn; auto. }
  rewrite <- FE in ND. destruct (grid_spec_resolved _ gs rs' HO R1 ND) as [EG LT]. rewrite EG. cbn [bind].
  (* the grid *)
  assert (MK : forall k c, nth_error (u_coords d) k = Some c -> exists g, made (named_rq (u_coords d) rs') c g /\ fine g /\ gpoints g <> [] /\
    (forall r, In (k, r) rs' -> exists a, g = Cells a /\ cells_for c r a) /\ (~ In k (map fst rs') -> exists mid, g = Whole mid)).
  { intros k c Hc. assert (Hk : k < length (u_coords d)) by (apply nth_error_Some; congruence). destruct (named_rq_get _ rs' k (proj1 HO) ND LT Hk) as [G1 G2].
    assert (EC : cname (u_coords d) k = c_name c) by (unfold cname; rewrite Hc; reflexivity). rewrite EC in *. unfold made.
    destruct (in_dec Nat.eq_dec k (map fst rs')) as [I|I].
    - apply in_map_iff in I. destruct I as ([k' r] & E & HI). cbn in E. subst k'. rewrite (G1 _ HI). assert (U : upwards r) by (rewrite Forall_forall in UP'; apply (UP' _ HI)). destruct U as [U1 U2].
      destruct (partial_cells c r U1 U2) as (a & E & CF & GAx & DA). exists (Cells a). split; auto. split; [split; auto|]. split; [cbn; destruct CF as [[C1 C2] _ _ _ _]; destruct (ax_points a), (ax_bounds a); cbn in *; congruence|].
      split; [|intros C; exfalso; apply C; apply (in_map fst _ _ HI)]. intros r0 H0. assert (E0 : Some r0 = Some r) by (rewrite <- (G1 _ H0); apply G1; auto). injection E0 as ->. eauto.
    - rewrite (G2 I). assert (NC : somes (c_points c) <> []) by (apply NEc; eapply nth_error_In; eauto). destruct (smallest_of _ NC) as (x & Ex & _). destruct (largest_of _ NC) as (y & Ey & _).
      exists (Whole (x + (y - x) / 2)). split; [unfold fully_collapsed, start_end; rewrite Ex, Ey; reflexivity|]. split; [exact Logic.I|]. split; [discriminate|]. split; [|eauto]. intros r H0. exfalso. apply I. apply (in_map fst _ _ H0). }
  assert (GR : exists grid, Forall2 (made (named_rq (u_coords d) rs')) (u_coords d) grid /\ Forall fine grid /\ Forall (fun g => gpoints g <> []) grid /\
    forall k c g, nth_error (u_coords d) k = Some c -> nth_error grid k = Some g -> (forall r, In (k, r) rs' -> exists a, g = Cells a /\ cells_for c r a) /\ (~ In k (map fst rs') -> exists mid, g = Whole mid)).
  { clear - MK. generalize (named_rq (u_coords d) rs') as spec, MK. clear MK. intros spec MK.
    assert (G : forall cs off, (forall k c, nth_error cs k = Some c -> exists g, made spec c g /\ fine g /\ gpoints g <> [] /\ (forall r, In (off + k, r) rs' -> exists a, g = Cells a /\ cells_for c r a) /\ (~ In (off + k) (map fst rs') -> exists mid, g = Whole mid)) ->
      exists grid, Forall2 (made spec) cs grid /\ Forall fine grid /\ Forall (fun g => gpoints g <> []) grid /\
        forall k c g, nth_error cs k = Some c -> nth_error grid k = Some g -> (forall r, In (off + k, r) rs' -> exists a, g = Cells a /\ cells_for c r a) /\ (~ In (off + k) (map fst rs') -> exists mid, g = Whole mid)).
    { induction cs as [|c cs IH]; intros off H; [exists []; repeat split; try constructor; destruct k; discriminate|].
      destruct (H 0 c eq_refl) as (g & G1 & G2 & G3 & G4). destruct (IH (S off)) as (grid & I1 & I2 & I3 & I4).
      { intros k x Hk. destruct (H (S k) x Hk) as (g' & Hg). exists g'. rewrite <- plus_n_Sm in Hg. exact Hg. }
      exists (g :: grid). repeat split; try constructor; auto; destruct k as [|k]; cbn in *; try (injection H0 as <-; injection H1 as <-; apply G4); destruct (I4 k c0 g0 H0 H1) as [J1 J2]; rewrite <- plus_n_Sm; auto. }
    apply (G (u_coords d) 0 MK). }
  destruct GR as (grid & GM & GF & GP & GK). rewrite (new_coords_spec (u_coords d) (proj1 HO) (named_rq (u_coords d) rs') grid GM).
  2:{ intros k Hk. unfold named_rq in Hk. rewrite map_map in Hk. apply in_map_iff in Hk. destruct Hk as ([j r] & <- & HI). cbn [fst]. apply cname_in. rewrite Forall_forall in LT. apply (LT _ HI). }
  cbn [bind]. assert (LG : length grid = length (u_coords d)) by (symmetry; eapply Forall2_length; exact GM).
  destruct (collocate_ok d grid HA HC HO NV HLat LG GF GP) as (out & EO & LB & RB). exists out. split; auto.
  destruct (collocate_values kernel argsort (u_coords d) grid d HA HC (own_unique _ HO) HLon eq_refl LG GF HP out EO) as (SD & AX & RV). split; auto.
  assert (FX : Forall fine (ag_axes out)). { rewrite AX, Forall_map, Forall_forall. intros ci Hci. rewrite Forall_forall in GF. apply GF, nth_In. apply SD in Hci. destruct Hci as (c & Hc & _). rewrite LG. apply nth_error_Some. congruence. }
  split; [|auto].
  split; [rewrite AX, map_length; auto|]. split; auto. intros j ci g b c Hj Hg Hb Hc.
  rewrite AX, nth_error_map, Hj in Hg. injection Hg as <-. pose proof (RB j ci b Hj Hb) as RBc. rewrite (nth_error_nth _ _ _ Hc) in RBc.
  assert (Lci : ci < length grid) by (rewrite LG; apply nth_error_Some; congruence). destruct (nth_error grid ci) as [g|] eqn:Eg; [|apply nth_error_None in Eg; lia]. rewrite (nth_error_nth _ _ _ Eg) in *.
  destruct (GK ci c g Hc Eg) as [K1 K2]. split.
  - intros r Hr. destruct (SAME ci r Hr) as (r' & Hr' & S1 & S2 & S3). destruct (K1 r' Hr') as (a & -> & CF). exists a. cbn in RBc. injection RBc as <-. split; auto. split; auto. apply (cells_for_proper c r' r a); auto.
  - intros NI. rewrite <- FE in NI. destruct (K2 NI) as (mid & ->). split; [eauto|]. cbn [reported_bounds] in RBc. unfold start_end in RBc. assert (NC : somes (c_points c) <> []) by (apply NEc; eapply nth_error_In; eauto).
    destruct (smallest_of _ NC) as (x & Ex & Sx). destruct (largest_of _ NC) as (y & Ey & Sy). rewrite Ex, Ey in RBc. cbn [bind] in RBc. injection RBc as <-. eauto.
Qed.
Theorem aggregate_missing d gs : proper d -> exists d', proper d' /\ all_located d' /\ rows d' = located_rows d /\ map identity_of (u_coords d') = map identity_of (u_coords d) /\ aggregate kernel argsort d gs = aggregate kernel argsort d' gs.
Proof.
  intros HPr. destruct (proper_processed d HPr) as (d1 & E & A & C & R & I & N & O). exists d1. split; [split; auto|]. split; auto. split; auto. split; auto. unfold aggregate. rewrite E, (aligned_complete d1 A C). reflexivity.
Qed.
End Whole.
