(** C69: the theorems. *)
From Coq Require Import String.
From Verif Require Import Base PyStr QBase LonModel LonSpec UngrModel UngrSpec SubsetSpec InterpModel InterpSpec GUModel GUSpec Subset3Proofs Interp2Proofs GU5Proofs GU6Proofs.
From Coq Require Import List Lqa Lia QArith.
Import ListNotations.
Open Scope string_scope. Open Scope list_scope. Open Scope nat_scope. Notation length := List.length.

(** Every sample gets what interpolation (or the nearest grid point) answers at its place on the grid as it was given, for every variable; the coordinates of the
    result are the sample's.  Partial: missing for samples between the start of the longitude range and the grid's first longitude in it; all variables on one grid;
    grids around the world or within the sample's longitude range. *)
Theorem C69_partial : forall how m mdfms s v0 vs, way how m -> aligned s -> complete s -> unique_standard_names (u_coords s) -> u_values s <> [] ->
  (forall g, In g (v0 :: vs) -> placeable s g /\ g_dims g = g_dims v0) ->
  exists rs s' gs', sampled_from how mdfms s (v0 :: vs) = Ok (rs, s', gs') /\ same_but_turns s s' /\ Forall2 (fun g r => answers m mdfms s g r) (v0 :: vs) rs.
Proof. exact sampled_ok. Qed.
Print Assumptions C69_partial.
(** data with a dimension the sample does not define are refused *)
Theorem C69_undefined : forall how m mdfms s v0 vs, way how m -> aligned s -> complete s -> unique_standard_names (u_coords s) -> u_values s <> [] ->
  Forall (fun g => named_by s g \/ unknown_to s g) (g_dims v0) -> Exists (unknown_to s) (g_dims v0) -> sampled_from how mdfms s (v0 :: vs) = Raises ValueError.
Proof. exact sampled_undefined. Qed.
Print Assumptions C69_undefined.
(** other methods are refused *)
Theorem C69_methods : forall how mdfms s gs, (forall m, ~ way how m) -> sampled_from how mdfms s gs = Raises ValueError.
Proof. exact sampled_method. Qed.
Print Assumptions C69_methods.

(** a case: two variables over latitude and longitude, the grid's longitudes 0..360, the sample's -180..180; one sample at 355 in the grid's terms, one without a value *)
Definition a_coord (name : string) (p : list Q) : coord := mkCoord (Some (lit name)) [] (lit name) [] [length p] (map Some p).
Definition a_sample (lats lons : list Q) (v : list (option Q)) : udata := mkU [a_coord "latitude" lats; a_coord "longitude" lons] [length v] v.
Definition a_dim (name : string) (p : list Q) (c : bool) : gdim := mkGDim (Some (lit name)) [] (mkDim p c).
Definition lat4 := a_dim "latitude" [-(30); 30]%Q false.
Definition lon4 := a_dim "longitude" [0; 90; 180; 270]%Q true.
Definition column (e : list nat) : option Q := match e with [_; j] => Some (inject_Z (Z.of_nat j * 10)) | [j] => Some (inject_Z (Z.of_nat j * 10)) | _ => None end.
Definition v1 := mkG [lat4; lon4] [] column.
Definition v2 := mkG [lat4; lon4] [] (fun e => match e with [0; 2] => None | [i; j] => Some (inject_Z (Z.of_nat (i * 100 + j))) | _ => None end).
Definition s1 := a_sample [0; 30; 0; 60]%Q [-(45); 45; 100; 10]%Q [Some 1; Some 2; None; Some 4]%Q.
Definition results (r : res (list (list (option Q)) * udata * list gdata)) : list (list (option Q)) := match r with Ok (rs, _, _) => map (map (option_map Qred)) rs | Raises _ => [] end.
Lemma a_unique lats lons v : unique_standard_names (u_coords (a_sample lats lons v)).
Proof. intros [|[|i]] [|[|j]] a b nm; cbn; intros Ha Hb N Sa Sb; try (destruct i; discriminate); try (destruct j; discriminate); auto; injection Ha as <-; injection Hb as <-; cbn in Sa, Sb; exfalso; rewrite <- Sa in Sb; discriminate. Qed.
Lemma a_named lats lons v name p c : name = "latitude" \/ name = "longitude" -> named_by (a_sample lats lons v) (a_dim name p c).
Proof.
  intros [-> | ->]; [exists (lit "latitude"), (a_coord "latitude" lats)|exists (lit "longitude"), (a_coord "longitude" lons)]; (split; [reflexivity|]); (split; [discriminate|]); (split; [discriminate|]); (split; [cbn; auto|]); (split; [reflexivity|]);
    intros c' [<-|[<-|[]]] H; auto; exfalso; cbn in H; destruct H as [H|[H|H]]; discriminate.
Qed.
Lemma conv_low s low : convention s low -> low = (-(180))%Q \/ low = 0%Q.
Proof. intros (c & _ & _ & [[-> _]|[-> _]]); auto. Qed.
Ltac increasing_tac := repeat (constructor; [|try (repeat constructor; reflexivity); try constructor]); repeat constructor.
Lemma inc_lat : proper_dims [gd_dim lat4; gd_dim lon4].
Proof. repeat apply Forall_cons; try apply Forall_nil; (split; [|split; [|cbn; lia]]); unfold increasing; cbn; repeat constructor. Qed.
Lemma placeable_12 g : g_dims g = [lat4; lon4] -> g_aux g = [] -> placeable s1 g.
Proof.
  intros E A. unfold placeable. rewrite E, A. split; [discriminate|]. split; [repeat constructor; apply a_named; auto|].
  split. { intros [|[|i]] [|[|j]] a b; cbn; intros Ha Hb S; auto; try (destruct i; discriminate); try (destruct j; discriminate); injection Ha as <-; injection Hb as <-; discriminate. }
  split; [exact inc_lat|]. split; [|intros []].
  apply Forall_cons; [intros X; discriminate X|]. apply Forall_cons; [|apply Forall_nil]. intros _ low HC. left. split; [reflexivity|]. exists 0%Q. split; [left; reflexivity|]. destruct (conv_low _ _ HC) as [-> | ->]; unfold in_range; lra.
Qed.
Example C69_hypotheses : way (lit "lin") Lin /\ aligned s1 /\ complete s1 /\ unique_standard_names (u_coords s1) /\ u_values s1 <> [] /\ forall g, In g [v1; v2] -> placeable s1 g /\ g_dims g = g_dims v1.
Proof.
  split; [left; auto|]. split; [repeat constructor|]. split; [intros r Hr; vm_compute in Hr; decompose [or] Hr; subst; try reflexivity; contradiction|]. split; [apply a_unique|]. split; [discriminate|].
  intros g [<-|[<-|[]]]; split; try reflexivity; apply placeable_12; reflexivity.
Qed.
Example C69_case : results (sampled_from (lit "lin") true s1 [v1; v2]) = [[Some 15; Some 5; None; None]; [Some (103 # 2); Some (201 # 2); None; None]]%Q
  /\ results (sampled_from (lit "nn") false s1 [v1; v2]) = [[Some 30; Some 0; Some 10; None]; [Some 3; Some 100; Some 1; None]]%Q
  /\ sampled_from (lit "bin") true s1 [v1] = Raises ValueError.
Proof. vm_compute. repeat split; reflexivity. Qed.

(** Without the exceptions it does not hold. *)
Definition lon1 (p : list Q) (c : bool) : gdata := mkG [a_dim "longitude" p c] [] column.
(** a grid around the world that does not start at the range of the sample: nothing for a sample before its first longitude *)
Definition g_gap := lon1 [1; 91; 181; 271]%Q true.
Definition s_gap := a_sample [0; 0]%Q [1 # 2; 10]%Q [Some 1; Some 1]%Q.
(** a grid in the west, -90 to -10; the sample, given in 0..360, is there *)
Definition g_west := lon1 [-(90); -(50); -(10)]%Q false.
Definition s_west := a_sample [0]%Q [300]%Q [Some 1]%Q.
(** a grid across the date line; samples at 0 and -175: the one far away gets a value *)
Definition g_line := lon1 [170; 180; 190]%Q false.
Definition s_line := a_sample [0; 0]%Q [0; -(175)]%Q [Some 1; Some 1]%Q.
(** two variables on different grids: the second is read as if on the grid of the first *)
Definition g_first := lon1 [0; 10; 20]%Q false.
Definition g_second := lon1 [10; 110; 210]%Q false.
Definition s_two := a_sample [0]%Q [10]%Q [Some 1]%Q.
Lemma hyps_for s lats lons v ps : s = a_sample lats lons v -> aligned s -> complete s -> v <> [] -> Forall (fun pc : list Q * bool => proper_dims [mkDim (fst pc) (snd pc)]) ps -> hyps s (map (fun pc => lon1 (fst pc) (snd pc)) ps).
Proof.
  intros E HA HC HV HP. split; auto. split; auto. split; [subst; apply a_unique|]. split; [subst; exact HV|]. intros g Hg. apply in_map_iff in Hg. destruct Hg as ([p c] & <- & Hp). rewrite Forall_forall in HP. specialize (HP _ Hp). cbn in *. split.
  - split; [discriminate|]. split; [repeat constructor; subst; apply a_named; auto|]. split; [intros [|i] [|j] a b; cbn; intros; auto; try (destruct i; discriminate); destruct j; discriminate|]. split; auto.
  - exists (fun e => match e with [j] => inject_Z (Z.of_nat j * 10) | _ => 0%Q end). intros e He. inversion He as [|? j ? l Hj Hl]; subst. inversion Hl; subst. reflexivity.
Qed.
Ltac sorted_tac := repeat apply Forall_cons; try apply Forall_nil; (split; [|split; [|cbn; lia]]); unfold increasing; cbn; repeat constructor.
Ltac complete_tac := intros r Hr; vm_compute in Hr; decompose [or] Hr; subst; try reflexivity; contradiction.
Theorem C69_refuted : (hyps s_gap [g_gap] /\ goes_wrong s_gap [g_gap]) /\ (hyps s_west [g_west] /\ goes_wrong s_west [g_west]) /\ (hyps s_line [g_line] /\ goes_wrong s_line [g_line]) /\ (hyps s_two [g_first; g_second] /\ goes_wrong s_two [g_first; g_second]).
Proof.
  split; [split|split; [split|split; split]].
  - apply (hyps_for s_gap [0; 0]%Q [1 # 2; 10]%Q [Some 1; Some 1]%Q [([1; 91; 181; 271]%Q, true)]); [reflexivity|repeat constructor|complete_tac|discriminate|constructor; [cbn; sorted_tac|constructor]].
  - do 3 eexists. split; [vm_compute; reflexivity|]. intros F. inversion F as [|? ? ? ? [_ H] _]; subst. destruct (H 0 ltac:(cbn; lia)) as (pos & HL & HA). cbn [nth] in HA.
    destruct (one_position (a_dim "longitude" [1; 91; 181; 271]%Q true) s_gap 0 pos (a_coord "longitude" [1 # 2; 10]%Q) (1 # 2)%Q eq_refl HL) as (x' & -> & PL); [right; left; reflexivity|reflexivity|reflexivity|apply a_unique|].
    revert HA. apply never_missing; [cbn; sorted_tac|exists (fun e => match e with [j] => inject_Z (Z.of_nat j * 10) | _ => 0%Q end); intros e He; inversion He as [|? j ? l Hj Hl]; subst; inversion Hl; subst; reflexivity|].
    constructor; [|constructor]. apply (placed_inside _ (1 # 2)%Q (721 # 2)%Q _ PL); [exists 1%Z; reflexivity|]. unfold within. cbn. lra.
  - apply (hyps_for s_west [0]%Q [300]%Q [Some 1]%Q [([-(90); -(50); -(10)]%Q, false)]); [reflexivity|repeat constructor|complete_tac|discriminate|constructor; [cbn; sorted_tac|constructor]].
  - do 3 eexists. split; [vm_compute; reflexivity|]. intros F. inversion F as [|? ? ? ? [_ H] _]; subst. destruct (H 0 ltac:(cbn; lia)) as (pos & HL & HA). cbn [nth] in HA.
    destruct (one_position (a_dim "longitude" [-(90); -(50); -(10)]%Q false) s_west 0 pos (a_coord "longitude" [300]%Q) 300%Q eq_refl HL) as (x' & -> & PL); [right; left; reflexivity|reflexivity|reflexivity|apply a_unique|].
    revert HA. apply never_missing; [cbn; sorted_tac|exists (fun e => match e with [j] => inject_Z (Z.of_nat j * 10) | _ => 0%Q end); intros e He; inversion He as [|? j ? l Hj Hl]; subst; inversion Hl; subst; reflexivity|].
    constructor; [|constructor]. apply (placed_inside _ 300%Q (-(60))%Q _ PL); [exists (-1)%Z; reflexivity|]. unfold within. cbn. lra.
  - apply (hyps_for s_line [0; 0]%Q [0; -(175)]%Q [Some 1; Some 1]%Q [([170; 180; 190]%Q, false)]); [reflexivity|repeat constructor|complete_tac|discriminate|constructor; [cbn; sorted_tac|constructor]].
  - do 3 eexists. split; [vm_compute; reflexivity|]. intros F. inversion F as [|? ? ? ? [_ H] _]; subst. destruct (H 0 ltac:(cbn; lia)) as (pos & HL & HA). cbn [nth] in HA.
    destruct (one_position (a_dim "longitude" [170; 180; 190]%Q false) s_line 0 pos (a_coord "longitude" [0; -(175)]%Q) 0%Q eq_refl HL) as (x' & -> & PL); [right; left; reflexivity|reflexivity|reflexivity|apply a_unique|].
    destruct HA as [_ HA]. destruct HA as [HO _]; [intros [_ X]; discriminate|]. specialize (HO eq_refl). cbn [fst] in HO. discriminate HO.
    intros HI. inversion HI as [|? ? ? ? W _]; subst. destruct PL as [(k & Ek) _]. destruct W as [W1 W2]. cbn in W1, W2. rewrite Ek in W1, W2. clear -W1 W2.
    assert (K : (170 <= 360 * k <= 190)%Z). { unfold Qle, Qplus, Qmult, inject_Z in *. cbn -[Z.mul Z.add] in W1, W2. lia. } lia.
  - apply (hyps_for s_two [0]%Q [10]%Q [Some 1]%Q [([0; 10; 20]%Q, false); ([10; 110; 210]%Q, false)]); [reflexivity|repeat constructor|complete_tac|discriminate|constructor; [cbn; sorted_tac|constructor; [cbn; sorted_tac|constructor]]].
  - do 3 eexists. split; [vm_compute; reflexivity|]. intros F. inversion F as [|? ? ? ? _ F2]; subst. inversion F2 as [|? ? ? ? [_ H] _]; subst. destruct (H 0 ltac:(cbn; lia)) as (pos & HL & HA). cbn [nth] in HA.
    destruct (one_position (a_dim "longitude" [10; 110; 210]%Q false) s_two 0 pos (a_coord "longitude" [10]%Q) 10%Q eq_refl HL) as (x' & -> & PL); [right; left; reflexivity|reflexivity|reflexivity|apply a_unique|].
    assert (W : within [10; 110; 210]%Q x'). { apply (placed_inside _ 10%Q 10%Q _ PL); [exists 0%Z; reflexivity|]. unfold within. cbn. lra. }
    assert (E : (x' == 10)%Q). { destruct PL as [(k & Ek) _]. destruct W as [W1 W2]. cbn in W1, W2. rewrite Ek in W1, W2. assert (k = 0)%Z as -> by (unfold Qle, Qplus, Qmult, inject_Z in *; cbn -[Z.mul Z.add] in W1, W2; lia). rewrite Ek. reflexivity. }
    destruct (linear_node [mkDim [10; 110; 210]%Q false] column (fun e => match e with [j] => inject_Z (Z.of_nat j * 10) | _ => 0%Q end) true false ([x'], false) (Some (1000 # 100)%Q) [0]) as (q & Eq & Hq); [cbn; sorted_tac|intros e He; inversion He as [|? j ? l Hj Hl]; subst; inversion Hl; subst; reflexivity|exact HA|intros [_ X]; discriminate|apply Forall2_cons; [exact W|apply Forall2_nil]|split; [apply Forall2_cons; [split; [cbn; lia|exact E]|apply Forall2_nil]|reflexivity]|].
    injection Eq as <-. discriminate Hq.
Qed.
Print Assumptions C69_refuted.
