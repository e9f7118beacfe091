(** Proofs for C75. *)
From Coq Require Import String.
From Verif Require Import Base PyStr QBase NcgModel NcgSpec.
From Coq Require Import List Lia.
Import ListNotations.
Open Scope string_scope. Open Scope list_scope. Open Scope nat_scope. Notation length := List.length.

Lemma is_iff o s : is o s = true <-> o = Some s.
Proof. destruct o as [t|]; cbn; [|split; discriminate]. split; [intros E; apply str_eqb_eq in E; congruence|intros [= ->]; apply str_eqb_refl]. Qed.
Lemma is_not o s : is o s = false <-> o <> Some s.
Proof. rewrite <- is_iff. destruct (is o s); split; congruence. Qed.
Lemma opt_eqb_iff a b : opt_eqb a b = true <-> a = b.
Proof. destruct a, b; cbn; try (split; congruence). split; [intros E; apply str_eqb_eq in E; congruence|intros [= ->]; apply str_eqb_refl]. Qed.
Lemma picks_filter (P : gcube -> Prop) (p : gcube -> bool) : (forall c, p c = true <-> P c) -> forall raw l, picks P raw l <-> l = filter p raw.
Proof.
  intros H raw. induction raw as [|c raw IH]; intros l; cbn [filter].
  - split; [inversion 1; reflexivity|intros ->; constructor].
  - destruct (p c) eqn:E.
    + assert (HP : P c) by (apply H; exact E). split.
      * inversion 1; subst; [f_equal; apply IH; auto|contradiction].
      * intros ->. apply picks_yes; [exact HP|apply IH; reflexivity].
    + assert (HP : ~ P c) by (rewrite <- H; congruence). split.
      * inversion 1; subst; [contradiction|apply IH; auto].
      * intros ->. apply picks_no; [exact HP|apply IH; reflexivity].
Qed.
Lemma named_cube_iff v c : named_cube v c = true <-> has_name v c.
Proof. unfold named_cube, has_name. rewrite !Bool.orb_true_iff, !is_iff. tauto. Qed.
Section Ncg.
Variable together : list gcube -> option gcube.
Variable std_time : str -> Q -> option Q.
Notation one_cube := (one_cube together). Notation no_cube := (no_cube together). Notation load := (load_cube together).
Lemma load_one P p raw c : (forall c, p c = true <-> P c) -> (one_cube raw P c <-> load raw p = Ok c).
Proof.
  intros H. unfold NcgSpec.one_cube, load_cube. split.
  - intros (l & HP & K). apply (picks_filter P p H) in HP. subst l. destruct K as [->|[L T]]; [reflexivity|]. destruct (filter p raw) as [|a [|b m]]; cbn in L; try lia. rewrite T. reflexivity.
  - intros E. exists (filter p raw). split; [apply (picks_filter P p H); reflexivity|]. destruct (filter p raw) as [|a [|b m]]; [discriminate|injection E as <-; auto|]. destruct (together (a :: b :: m)); [|discriminate]. injection E as <-. right. split; [cbn; lia|reflexivity].
Qed.
Lemma load_none P p raw : (forall c, p c = true <-> P c) -> (no_cube raw P <-> load raw p = Raises ValueError).
Proof.
  intros H. unfold NcgSpec.no_cube, load_cube. split.
  - intros (l & HP & K). apply (picks_filter P p H) in HP. subst l. destruct K as [->|[L T]]; [reflexivity|]. destruct (filter p raw) as [|a [|b m]]; cbn in L; try lia. rewrite T. reflexivity.
  - intros E. exists (filter p raw). split; [apply (picks_filter P p H); reflexivity|]. destruct (filter p raw) as [|a [|b m]]; [auto|discriminate|]. destruct (together (a :: b :: m)) eqn:T; [discriminate|]. right. split; [cbn; lia|reflexivity].
Qed.
Lemma load_total raw p : (exists c, load raw p = Ok c) \/ load raw p = Raises ValueError.
Proof. unfold load_cube. destruct (filter p raw) as [|a [|b m]]; eauto. destruct (together _); eauto. Qed.
(** ** the dimensions of what is added *)
Lemma check_fits shape : forall k cs more, cs = firstn k cs ++ shape ++ more -> length (firstn k cs) = k -> check_dims shape (seq k (length shape)) cs = Ok tt.
Proof.
  induction shape as [|n shape IH]; intros k cs more E L; [reflexivity|]. cbn [length seq check_dims]. assert (N : nth_error cs k = Some n) by (rewrite E, nth_error_app2, L, Nat.sub_diag by lia; reflexivity). rewrite N, Nat.eqb_refl.
  apply (IH (S k) cs more). { rewrite E at 2. rewrite firstn_app, L. replace (S k - k) with 1 by lia. rewrite firstn_all2 by lia. cbn [firstn app]. rewrite <- app_assoc. cbn [app]. exact E. }
  rewrite firstn_length in *. assert (k < length cs) by (apply nth_error_Some; congruence). lia.
Qed.
Lemma check_over k : forall cs n more, k <= length cs -> check_dims (skipn k cs ++ n :: more) (seq k (length (skipn k cs ++ n :: more))) cs = Raises IndexError.
Proof.
  intros cs n more H. remember (length cs - k) as m eqn:M. revert k H M. induction m as [|m IH]; intros k H M.
  - rewrite skipn_all2 by lia. cbn [app length seq check_dims]. replace (nth_error cs k) with (@None nat) by (symmetry; apply nth_error_None; lia). reflexivity.
  - destruct (nth_error cs k) as [x|] eqn:X; [|apply nth_error_None in X; lia]. assert (SK : skipn k cs = x :: skipn (S k) cs). { clear -X. revert k X. induction cs as [|y cs IHc]; intros [|k] X; cbn in *; try discriminate; [congruence|]. apply IHc; auto. }
    rewrite SK. cbn [app length seq check_dims]. rewrite X, Nat.eqb_refl. apply IH; lia.
Qed.
Lemma check_other shape : forall k cs, k <= length cs -> (forall more, skipn k cs <> shape ++ more) -> (forall n more, shape <> skipn k cs ++ n :: more) -> check_dims shape (seq k (length shape)) cs = Raises ValueError.
Proof.
  induction shape as [|n shape IH]; intros k cs H NF NO; [exfalso; apply (NF (skipn k cs)); reflexivity|]. cbn [length seq check_dims]. destruct (nth_error cs k) as [x|] eqn:X.
  - assert (SK : skipn k cs = x :: skipn (S k) cs). { clear -X. revert k X. induction cs as [|y cs IHc]; intros [|k] X; cbn in *; try discriminate; [congruence|]. apply IHc; auto. }
    destruct (Nat.eqb_spec n x) as [->|NE]; [|reflexivity]. apply IH.
    + apply nth_error_Some. congruence.
    + intros more E. apply (NF more). rewrite SK, E. reflexivity.
    + intros m more E. apply (NO m more). rewrite SK, E. reflexivity.
  - apply nth_error_None in X. exfalso. apply (NO n shape). rewrite skipn_all2 by lia. reflexivity.
Qed.
Lemma fits_dec g c : {fits g c} + {~ fits g c}.
Proof.
  unfold fits. destruct (list_eq_dec Nat.eq_dec (firstn (length (q_shape g)) (q_shape c)) (q_shape g)) as [E|N].
  - left. exists (skipn (length (q_shape g)) (q_shape c)). rewrite <- E at 1. symmetry. apply firstn_skipn.
  - right. intros (more & E). apply N. rewrite E, firstn_app, Nat.sub_diag, firstn_all. cbn. apply app_nil_r.
Qed.
Lemma positional_fits std long var units g f c : fits g c -> check_dims (x_shape (positional std long var units g f)) (x_dims (positional std long var units g f)) (q_shape c) = Ok tt.
Proof. intros (more & E). cbn [positional x_shape x_dims]. apply (check_fits _ 0 _ more); [cbn; exact E|reflexivity]. Qed.
Lemma positional_not std long var units g f c : ~ fits g c -> ~ overhangs g c -> check_dims (x_shape (positional std long var units g f)) (x_dims (positional std long var units g f)) (q_shape c) = Raises ValueError.
Proof. intros NF NO. cbn [positional x_shape x_dims]. apply check_other; [lia| |]; cbn [skipn]; [intros more E; apply NF; exists more; exact E|intros n more E; apply NO; exists n, more; exact E]. Qed.
Lemma picked_index i n : n <= length i -> map (fun d => nth d i 0) (seq 0 n) = firstn n i.
Proof.
  revert n. induction i as [|x i IH]; intros n H; [cbn in H; replace n with 0 by lia; reflexivity|]. destruct n as [|n]; [reflexivity|]. cbn [seq map firstn nth]. f_equal. rewrite <- seq_shift, map_map. apply IH. cbn in H. lia.
Qed.
Lemma positional_gives std long var units g f c : fits g c -> gives c g std units f (positional std long var units g f).
Proof.
  intros (more & E). split; [reflexivity|]. split; [reflexivity|]. intros i Hi. unfold aux_at. cbn [positional x_at x_dims]. rewrite picked_index; [reflexivity|]. unfold cell in Hi. assert (L : length i = length (q_shape c)) by (clear -Hi; induction Hi; cbn; congruence). rewrite L, E, app_length. lia.
Qed.
Definition with_aux (c : gcube) (l : list auxc) : gcube := mkGcube (q_var c) (q_std c) (q_long c) (q_units c) (q_shape c) (q_dims c) (q_at c) (q_aux c ++ l) (q_atts c).
Lemma with_nil c : with_aux c [] = c.
Proof. destruct c. unfold with_aux. cbn. rewrite app_nil_r. reflexivity. Qed.
Lemma with_app c l m : with_aux (with_aux c l) m = with_aux c (l ++ m).
Proof. unfold with_aux. cbn. rewrite app_assoc. reflexivity. Qed.
Lemma add_fresh c std long var units g f l : fits g c -> plain_cube c -> (var = "altitude"%string \/ var = "air_pressure"%string) -> (forall a, In a l -> x_var a <> Some (lit var)) ->
  add_aux_coord (with_aux c l) (positional std long var units g f) = Ok (with_aux c (l ++ [positional std long var units g f])).
Proof.
  intros F [P1 P2] V L. unfold add_aux_coord. change (q_shape (with_aux c l)) with (q_shape c). rewrite positional_fits by exact F. cbn [bind].
  destruct (_ || _) eqn:X; [exfalso|change (q_aux (with_aux c l)) with (q_aux c ++ l); rewrite <- app_assoc; reflexivity].
  apply Bool.orb_true_iff in X. destruct X as [X|X]; apply existsb_exists in X.
  - destruct X as (a & Ha & E). unfold same_coord in E. rewrite !Bool.andb_true_iff, !opt_eqb_iff in E. destruct E as [[[_ _] E] _]. cbn [positional x_var] in E. cbn [with_aux q_aux] in Ha. apply in_app_iff in Ha. destruct Ha as [Ha|Ha]; [destruct (P1 a Ha) as [A B]; destruct V as [->| ->]; congruence|]. apply (L a Ha). congruence.
  - destruct X as ([k|] & Hk & E); [|discriminate]. unfold same_dimc in E. rewrite !Bool.andb_true_iff, !opt_eqb_iff in E. destruct E as [[[_ _] E] _]. cbn [positional x_var] in E. cbn [with_aux q_dims] in Hk. destruct (P2 k Hk) as [A B]. destruct V as [->| ->]; congruence.
Qed.
Lemma add_dup c std long var units g g' f f' : fits g c -> add_aux_coord (with_aux c [positional std long var units g' f']) (positional std long var units g f) = Raises ValueError.
Proof.
  intros F. unfold add_aux_coord. change (q_shape (with_aux c _)) with (q_shape c). rewrite positional_fits by exact F. cbn [bind]. replace (existsb _ (q_aux _)) with true; [reflexivity|]. symmetry. apply existsb_exists. eexists. split; [cbn [with_aux q_aux]; apply in_app_iff; right; left; reflexivity|].
  unfold same_coord. cbn [positional x_std x_long x_var x_units]. rewrite (proj2 (opt_eqb_iff _ _) eq_refl), (proj2 (opt_eqb_iff (Some (lit long)) _) eq_refl), (proj2 (opt_eqb_iff (Some (lit var)) _) eq_refl), str_eqb_refl. reflexivity.
Qed.
Section Vertical.
Variables (raw : list gcube) (c : gcube).
Hypothesis PC : plain_cube c.
Hypothesis NO : forall n g, In n vertical -> source together raw n g -> ~ overhangs g c.
Lemma source_iff n g : source together raw n g <-> load raw (fun g => is (q_std g) (lit n)) = Ok g.
Proof. apply load_one. intros x. rewrite is_iff. reflexivity. Qed.
Lemma step n std long var units f l : In n vertical -> (var = "altitude"%string \/ var = "air_pressure"%string) -> (forall a, In a l -> x_var a <> Some (lit var)) ->
  (exists g, source together raw n g /\ fits g c /\ add_available together raw (with_aux c l) (lit n, fun g => positional std long var units g f) = Ok (with_aux c (l ++ [positional std long var units g f]))) \/
  (~ usable together raw n c /\ add_available together raw (with_aux c l) (lit n, fun g => positional std long var units g f) = Ok (with_aux c l)).
Proof.
  intros Hn V L. unfold add_available. cbn [fst snd]. destruct (load_total raw (fun g => is (q_std g) (lit n))) as [(g & E)|E]; rewrite E; cbn [bind].
  - destruct (fits_dec g c) as [F|F].
    + left. exists g. split; [apply source_iff; exact E|]. split; [exact F|]. rewrite add_fresh; auto.
    + right. split; [intros (g' & S & F'); apply source_iff in S; congruence|]. unfold add_aux_coord. change (q_shape (with_aux c l)) with (q_shape c). rewrite positional_not; [reflexivity|exact F|]. apply (NO n); [exact Hn|apply source_iff; exact E].
  - right. split; [intros (g' & S & F'); apply source_iff in S; congruence|reflexivity].
Qed.
Lemma step_dup n std long var units f g' f' : In n vertical ->
  add_available together raw (with_aux c [positional std long var units g' f']) (lit n, fun g => positional std long var units g f) = Ok (with_aux c [positional std long var units g' f']).
Proof.
  intros Hn. unfold add_available. cbn [fst snd]. destruct (load_total raw (fun g => is (q_std g) (lit n))) as [(g & E)|E]; rewrite E; cbn [bind]; [|reflexivity].
  destruct (fits_dec g c) as [F|F]; [rewrite add_dup by exact F; reflexivity|]. unfold add_aux_coord. change (q_shape (with_aux c _)) with (q_shape c). rewrite positional_not; [reflexivity|exact F|]. apply (NO n); [exact Hn|apply source_iff; exact E].
Qed.
Lemma aux_added : exists h p, add_available_aux_coords together raw c = Ok (with_aux c (h ++ p)) /\ heights together raw c h /\ pressures together raw c p /\ (forall a, In a (h ++ p) -> ~ time_aux a).
Proof.
  assert (NT : forall std long var units g f, std <> "time"%string -> ~ time_aux (positional std long var units g f)).
  { intros std long var units g f N X. unfold time_aux in X. cbn [positional x_std] in X. injection X as X. apply N. apply (f_equal string_of_list_ascii) in X. unfold lit in X. rewrite !string_of_list_ascii_of_string in X. exact X. }
  assert (AP : In "air_pressure"%string vertical /\ In "geopotential"%string vertical /\ In "geopotential_height"%string vertical) by (cbn; auto 8). destruct AP as (I1 & I2 & I3).
  assert (W : add_available_aux_coords together raw c = add_available_aux_coords together raw (with_aux c [])) by (rewrite with_nil; reflexivity). rewrite W. unfold add_available_aux_coords, aux_coord_creation_functions. cbn [fold_left bind].
  assert (PR : forall h, (forall a, In a h -> x_var a <> Some (lit "air_pressure")) -> exists p, add_available together raw (with_aux c h) (lit "air_pressure", from_air_pressure) = Ok (with_aux c (h ++ p)) /\ pressures together raw c p /\ (forall a, In a p -> ~ time_aux a)).
  { intros h Hh. destruct (step "air_pressure" "air_pressure" "Air Pressure" "air_pressure" "Pa" (fun v => v) h I1 (or_intror eq_refl) Hh) as [(g & S & F & E)|(NU & E)].
    - eexists. split; [exact E|]. split; [apply (from_pressure _ _ _ g); auto; apply positional_gives; exact F|]. intros a [<-|[]]. apply NT. discriminate.
    - exists []. rewrite app_nil_r. split; [exact E|]. split; [apply no_pressures; exact NU|intros a []]. }
  destruct (step "geopotential" "altitude" "Geopotential height at layer midpoints" "altitude" "meter" (fun v => (v / standard_gravity)%Q) [] I2 (or_introl eq_refl)) as [(g & S & F & E)|(NU & E)]; [intros a []| |].
  - unfold from_geopotential. rewrite E. cbn [app bind]. rewrite (step_dup "geopotential_height" "altitude" "Geopotential height at layer midpoints" "altitude" "meter" (fun v => v) g _ I3 : add_available together raw _ (lit "geopotential_height", from_geopotential_height) = _). cbn [bind].
    destruct (PR [positional "altitude" "Geopotential height at layer midpoints" "altitude" "meter" g (fun v => (v / standard_gravity)%Q)]) as (p & Ep & Hp & Tp). { intros a [<-|[]]. cbn [positional x_var]. discriminate. }
    exists [positional "altitude" "Geopotential height at layer midpoints" "altitude" "meter" g (fun v => (v / standard_gravity)%Q)], p. split; [exact Ep|]. split; [apply (from_potential _ _ _ g); auto; apply positional_gives; exact F|]. split; [exact Hp|]. intros a Ha. apply in_app_iff in Ha. destruct Ha as [[<-|[]]|Ha]; [apply NT; discriminate|apply Tp; exact Ha].
  - unfold from_geopotential. rewrite E. cbn [bind].
    destruct (step "geopotential_height" "altitude" "Geopotential height at layer midpoints" "altitude" "meter" (fun v => v) [] I3 (or_introl eq_refl)) as [(g & S & F & E2)|(NU2 & E2)]; [intros a []| |].
    + unfold from_geopotential_height. rewrite E2. cbn [app bind]. destruct (PR [positional "altitude" "Geopotential height at layer midpoints" "altitude" "meter" g (fun v => v)]) as (p & Ep & Hp & Tp). { intros a [<-|[]]. cbn [positional x_var]. discriminate. }
      exists [positional "altitude" "Geopotential height at layer midpoints" "altitude" "meter" g (fun v => v)], p. split; [exact Ep|]. split; [apply (from_height _ _ _ g); auto; apply positional_gives; exact F|]. split; [exact Hp|]. intros a Ha. apply in_app_iff in Ha. destruct Ha as [[<-|[]]|Ha]; [apply NT; discriminate|apply Tp; exact Ha].
    + unfold from_geopotential_height. rewrite E2. cbn [bind]. destruct (PR []) as (p & Ep & Hp & Tp); [intros a []|]. exists [], p. split; [exact Ep|]. split; [apply no_heights; auto|]. split; [exact Hp|exact Tp].
Qed.
End Vertical.
End Ncg.
