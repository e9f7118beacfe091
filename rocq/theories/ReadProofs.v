From Verif Require Import Base PyStr QBase UtilModel UtilSpec UtilProofs ReadModel ReadSpec.
From Coq Require Import Lqa.
Open Scope Q_scope.

(** the elements of [b] are those of [a], also masked where [p] holds *)
Definition also_masked (p : fval -> bool) (a b : varr) : Prop := array_ok b /\ an_data b = an_data a /\ forall i x m, element a i x m -> element b i x (m || p x).
Lemma also_refl : forall a, array_ok a -> also_masked (fun _ => false) a a.
Proof. intros a H. split; [auto|]. split; [auto|]. intros i x m E. rewrite orb_false_r. exact E. Qed.
Lemma also_trans : forall p q a b c, also_masked p a b -> also_masked q b c -> also_masked (fun x => p x || q x) a c.
Proof.
  intros p q a b c (O1 & D1 & E1) (O2 & D2 & E2). split; [auto|]. split; [congruence|]. intros i x m E. rewrite orb_assoc. apply E2, E1, E.
Qed.
Lemma also_ext : forall p q a b, (forall x, p x = q x) -> also_masked p a b -> also_masked q a b.
Proof. intros p q a b X (O & D & E). split; [auto|]. split; [auto|]. intros i x m H. rewrite <- X. apply E, H. Qed.
Lemma combine_nth_error : forall {A B} (l : list A) (m : list B) i x y, nth_error l i = Some x -> nth_error m i = Some y -> nth_error (combine l m) i = Some (x, y).
Proof. induction l as [|a l IH]; intros [|b m] [|i] x y; cbn; try discriminate; [intros [= <-] [= <-]; reflexivity|apply IH]. Qed.
Lemma mask_if_ok : forall p a, array_ok a -> also_masked p a (mask_if p a).
Proof.
  intros p a H. split; [|split; [reflexivity|]].
  - cbn. rewrite orl_length; rewrite ?map_length, ?combine_length, ?getmaskarray_length; auto; lia.
  - intros i x m [E1 E2]. split; [exact E1|]. cbn. apply orl_nth. exists (m || p x), m. rewrite nth_error_map, (combine_nth_error _ _ _ _ _ E1 E2). cbn. repeat split; auto. destruct m, (p x); reflexivity.
Qed.
Definition out_of (a b : Q) (x : fval) : bool := v_lt (if Qltb b a then b else a) x || v_gt (if Qltb b a then a else b) x.
Lemma masked_outside_ok : forall a b d, array_ok d -> also_masked (out_of a b) d (masked_outside a b d).
Proof. intros a b d H. apply (mask_if_ok (out_of a b)). exact H. Qed.
Lemma out_of_spec : forall a b x, out_of a b x = true <-> outside a b x.
Proof.
  intros a b [q|]; unfold out_of, outside, v_lt, v_gt.
  - destruct (Qltb_spec b a) as [L|L]; rewrite orb_true_iff, !Qltb_lt; (split; [intros H; exists q; split; [reflexivity|]|intros (r & [= <-] & H)]); lra.
  - cbn. split; [discriminate|]. intros (q & H & _). discriminate.
Qed.
Lemma v_gt_spec : forall v x, v_gt v x = true <-> above v x.
Proof. intros v [q|]; unfold above; cbn; [rewrite Qltb_lt|]; split; try discriminate; eauto; [intros (r & [= <-] & H); auto|intros (r & H & _); discriminate]. Qed.
Lemma v_lt_spec : forall v x, v_lt v x = true <-> below v x.
Proof. intros v [q|]; unfold below; cbn; [rewrite Qltb_lt|]; split; try discriminate; eauto; [intros (r & [= <-] & H); auto|intros (r & H & _); discriminate]. Qed.
Lemma v_eq_spec : forall a b, v_eq a b = true <-> is_value a b.
Proof.
  intros [q|] [r|]; unfold v_eq, is_value; cbn; rewrite ?negb_involutive, ?Qeqb_eq; split; try discriminate; try (intros (? & ? & H1 & H2 & _); discriminate).
  - eauto.
  - intros (? & ? & [= <-] & [= <-] & H). exact H.
Qed.
Lemma is_value_comm : forall a b, is_value a b -> is_value b a.
Proof. intros a b (q & r & -> & -> & H). exists r, q. repeat split. symmetry. exact H. Qed.

Lemma map_data_element : forall f a i x m, element a i x m -> element (map_data f a) i (option_map f x) m.
Proof.
  intros f a i x m [E1 E2]. assert (D : an_data (map_data f a) = map (option_map f) (an_data a)) by (destruct a; reflexivity).
  split; [rewrite D; apply map_nth_error; exact E1|]. rewrite <- E2. f_equal. destruct a as [d|d [k|]]; cbn [map_data getmaskarray]; rewrite ?map_length; reflexivity.
Qed.
Lemma map_data_length : forall f a, length (an_data (map_data f a)) = length (an_data a).
Proof. intros f [d|d m]; cbn; apply map_length. Qed.
(** masking, then transforming *)
Lemma reads_ok : forall p f g invalid a b, also_masked p a b -> (forall x, p x = true <-> invalid x) -> (forall q, f q == g q) -> reads invalid g a (map_data f b).
Proof.
  intros p f g inv a b (O & D & E) P F. split; [rewrite map_data_length, D; reflexivity|]. intros i x m H. exists (option_map f x), (m || p x). split; [apply map_data_element, E, H|]. split.
  - rewrite orb_true_iff, P. reflexivity.
  - intros _. destruct x; cbn; auto.
Qed.
Lemma reads_id : forall p g invalid a b, also_masked p a b -> (forall x, p x = true <-> invalid x) -> (forall q, q == g q) -> reads invalid g a b.
Proof.
  intros p g inv a b (O & D & E) P F. split; [rewrite D; reflexivity|]. intros i x m H. exists x, (m || p x). split; [apply E, H|]. split.
  - rewrite orb_true_iff, P. reflexivity.
  - intros _. destruct x; cbn; auto.
Qed.

(** ** netCDF *)
Lemma cast_ok : forall t q, of_type t q -> cast t q == q.
Proof.
  intros [|signed bits] q; unfold cast, of_type; [reflexivity|]. intros (z & E & R). cbv zeta.
  assert (T : Qtrunc q = z). { unfold Qtrunc. destruct (Qleb 0 q); [rewrite (Qfloor_comp _ _ E); apply Qfloor_Z|rewrite (Qceiling_comp _ _ E); apply Qceiling_Z]. }
  rewrite T, E. apply inject_Z_injective. set (n := (2 ^ Z.pos bits)%Z) in *.
  assert (B : (n = 2 * 2 ^ (Z.pos bits - 1))%Z). { unfold n. replace (Z.pos bits) with (1 + (Z.pos bits - 1))%Z at 1 by lia. rewrite Z.pow_add_r; lia. }
  assert (BP : (0 < 2 ^ (Z.pos bits - 1))%Z) by (apply Z.pow_pos_nonneg; lia). set (h := (2 ^ (Z.pos bits - 1))%Z) in *.
  assert (HH : (n / 2 = h)%Z) by (rewrite B, Z.mul_comm; apply Z.div_mul; lia). rewrite HH. destruct signed; cbn [andb].
  - destruct (Z_le_gt_dec 0 z).
    + rewrite Z.mod_small by lia. destruct (h <=? z)%Z eqn:L; [apply Z.leb_le in L; lia|reflexivity].
    + assert (M : (z mod n = z + n)%Z) by (symmetry; apply Z.mod_unique with (-1)%Z; lia). rewrite M. destruct (h <=? z + n)%Z eqn:L; [lia|apply Z.leb_gt in L; lia].
  - apply Z.mod_small. exact R.
Qed.
Lemma above_eq : forall a b x, a == b -> above a x -> above b x.
Proof. intros a b x E (q & -> & H). exists q. split; [reflexivity|lra]. Qed.
Lemma below_eq : forall a b x, a == b -> below a x -> below b x.
Proof. intros a b x E (q & -> & H). exists q. split; [reflexivity|lra]. Qed.

Definition opt_mask {A} (o : option A) (p : A -> fval -> bool) (x : fval) : bool := match o with Some a => p a x | None => false end.
Lemma opt_mask_spec : forall {A} (o : option A) p (P : A -> fval -> Prop) x, (forall a, o = Some a -> p a x = true <-> P a x) -> opt_mask o p x = true <-> given o (fun a => P a x).
Proof.
  intros A [a|] p P x H; unfold opt_mask, given; [rewrite (H a eq_refl)|].
  - split; [eauto|intros (b & [= <-] & K); exact K].
  - split; [discriminate|intros (? & K & _); discriminate].
Qed.

Lemma nc_reads : forall var out, array_ok (nv_read var false) ->
  (forall v, nv_valid_max var = Some (Some v) \/ nv_valid_min var = Some (Some v) -> of_type (nv_type var) v) ->
  (forall l, nv_valid_range var = Some l -> length l = 2%nat) ->
  nc_get_data var = Ok out ->
  reads (not_valid (nv_valid_max var) (nv_valid_min var) (match nv_valid_range var with Some l => pair_of l | None => None end))
    (fun q => q * num (nv_scale var) 1 + num (nv_offset var) 0) (nv_read var false) out.
Proof.
  intros var out OK TY RG. unfold nc_get_data. cbv zeta. destruct var as [rd t vmax vmin vr off sc]. cbn [nv_read nv_type nv_valid_max nv_valid_min nv_valid_range nv_offset nv_scale] in *.
  set (raw := rd false) in *.
  set (d1 := match vmax with Some (Some v) => mask_if (v_gt (cast t v)) raw | _ => raw end).
  set (d2 := match vmin with Some (Some v) => mask_if (v_lt (cast t v)) d1 | _ => d1 end).
  set (d3 := match vr with Some [a; b] => masked_outside a b d2 | Some [a; b; _] => masked_outside a b d2 | _ => d2 end).
  set (p1 := opt_mask vmax (fun o => opt_mask o (fun v => v_gt (cast t v)))).
  set (p2 := opt_mask vmin (fun o => opt_mask o (fun v => v_lt (cast t v)))).
  set (rp := match vr with Some l => pair_of l | None => None end).
  set (p3 := opt_mask rp (fun r => out_of (fst r) (snd r))).
  assert (A1 : also_masked p1 raw d1) by (unfold p1, d1; destruct vmax as [[v|]|]; cbn; [apply mask_if_ok|apply also_refl|apply also_refl]; auto).
  assert (O1 : array_ok d1) by apply A1.
  assert (A2 : also_masked p2 d1 d2) by (unfold p2, d2; destruct vmin as [[v|]|]; cbn; [apply mask_if_ok|apply also_refl|apply also_refl]; auto).
  assert (O2 : array_ok d2) by apply A2.
  assert (A3 : also_masked p3 d2 d3).
  { unfold p3, d3, rp. destruct vr as [l|]; [|apply also_refl; auto]. specialize (RG l eq_refl). destruct l as [|a [|b [|]]]; try discriminate. cbn. apply masked_outside_ok. auto. }
  assert (A : also_masked (fun x => p1 x || (p2 x || p3 x)) raw d3).
  { eapply also_ext; [|eapply also_trans; [exact A1|eapply also_trans; [exact A2|exact A3]]]. reflexivity. }
  assert (P : forall x, (p1 x || (p2 x || p3 x))%bool = true <-> not_valid vmax vmin rp x).
  { intros x. rewrite !orb_true_iff. unfold not_valid.
    assert (P1 : p1 x = true <-> given vmax (fun m => given m (fun q => above q x))).
    { apply (opt_mask_spec vmax _ (fun m x => given m (fun q => above q x))). intros o EO. apply (opt_mask_spec o _ (fun q x => above q x)). intros v EV. subst o. rewrite v_gt_spec. assert (C := cast_ok t v (TY v (or_introl EO))). split; apply above_eq; [exact C|symmetry; exact C]. }
    assert (P2 : p2 x = true <-> given vmin (fun m => given m (fun q => below q x))).
    { apply (opt_mask_spec vmin _ (fun m x => given m (fun q => below q x))). intros o EO. apply (opt_mask_spec o _ (fun q x => below q x)). intros v EV. subst o. rewrite v_lt_spec. assert (C := cast_ok t v (TY v (or_intror EO))). split; apply below_eq; [exact C|symmetry; exact C]. }
    assert (P3 : p3 x = true <-> given rp (fun r => outside (fst r) (snd r) x)) by (apply (opt_mask_spec rp (fun r => out_of (fst r) (snd r)) (fun r => outside (fst r) (snd r))); intros [a b] _; apply out_of_spec).
    rewrite P1, P2, P3. reflexivity. }
  fold raw. unfold apply_offset_and_scaling, in_place. intros E.
  destruct sc as [s|], off as [o|]; cbn [num].
  - destruct (Qeqb_spec (n_val o) 0) as [Z|Z], (Qeqb_spec (n_val s) 1) as [Z1|Z1]; cbn [negb orb] in E; injection E as <-; first [eapply reads_id; [exact A|exact P|intros q; rewrite Z, Z1; ring] | eapply reads_ok; [exact A|exact P|intros q; ring]].
  - destruct (Qeqb_spec (n_val s) 1) as [Z|Z]; cbn [negb] in E; [injection E as <-; eapply reads_id; [exact A|exact P|intros q; rewrite Z; ring]|].
    destruct (is_int t && n_float s); [discriminate|]. injection E as <-. eapply reads_ok; [exact A|exact P|intros q; ring].
  - destruct (Qeqb_spec (n_val o) 0) as [Z|Z]; cbn [negb] in E; [injection E as <-; eapply reads_id; [exact A|exact P|intros q; rewrite Z; ring]|].
    destruct (is_int t && n_float o); [discriminate|]. injection E as <-. eapply reads_ok; [exact A|exact P|intros q; ring].
  - injection E as <-. eapply reads_id; [exact A|exact P|intros q; ring].
Qed.
Lemma nc_error : forall var, (exists e, nc_get_data var = Raises e) <-> is_int (nv_type var) = true /\ only_one_float (nv_scale var) (nv_offset var).
Proof.
  intros var. unfold nc_get_data. cbv zeta. unfold only_one_float. destruct var as [rd t vmax vmin vr off sc]. cbn [nv_read nv_type nv_valid_max nv_valid_min nv_valid_range nv_offset nv_scale].
  match goal with |- context [apply_offset_and_scaling t ?d off sc] => generalize d end. intros d. unfold apply_offset_and_scaling, in_place.
  destruct sc as [s|], off as [o|].
  - destruct (Qeqb_spec (n_val o) 0) as [Z|Z], (Qeqb_spec (n_val s) 1) as [Z1|Z1]; cbn [negb orb]; (split; [intros [e H]; discriminate H|intros (_ & [(? & _ & H & _)|(? & _ & H & _)]); discriminate H]).
  - destruct (Qeqb_spec (n_val s) 1) as [Z|Z]; cbn [negb]; [split; [intros [e H]; discriminate H|intros (_ & [(x & [= <-] & _ & _ & N)|(? & H & _)]); [contradiction|discriminate]]|].
    destruct (is_int t), (n_float s) eqn:F; cbn [andb]; split; try (intros [e H]; discriminate H); try (intros [H _]; discriminate H).
    + intros _. split; [auto|]. left. exists s. auto.
    + eauto.
    + intros (_ & [(x & [= <-] & _ & G & N)|(? & H & _)]); congruence.
  - destruct (Qeqb_spec (n_val o) 0) as [Z|Z]; cbn [negb]; [split; [intros [e H]; discriminate H|intros (_ & [(? & H & _)|(x & [= <-] & _ & _ & N)]); [discriminate|contradiction]]|].
    destruct (is_int t), (n_float o) eqn:F; cbn [andb]; split; try (intros [e H]; discriminate H); try (intros [H _]; discriminate H).
    + intros _. split; [auto|]. right. exists o. auto.
    + eauto.
    + intros (_ & [(? & H & _)|(x & [= <-] & _ & G & N)]); congruence.
  - split; [intros [e H]; discriminate H|intros (_ & [(? & H & _)|(? & H & _)]); discriminate H].
Qed.

(** ** HDF4 *)
Lemma fill_mask_ok : forall v d, also_masked (opt_mask v (fun v x => v_eq x v)) (Plain d) (fill_mask v d).
Proof.
  intros [v|] d; cbn; [|apply also_refl; exact I]. split; [|split; [reflexivity|]].
  - cbn. apply map_length.
  - intros i x m [E1 E2]. cbn in E1, E2. split; cbn; [exact E1|]. rewrite nth_error_map, E1. cbn. apply nth_error_In, repeat_spec in E2. subst m. reflexivity.
Qed.
Lemma range_mask_ok : forall r a, array_ok a -> also_masked (opt_mask r (fun r => out_of (fst r) (snd r))) a (range_mask r a).
Proof. intros [[lo hi]|] a H; cbn; [apply masked_outside_ok; auto|apply also_refl; auto]. Qed.
Lemma fill_spec : forall v x, opt_mask v (fun v x => v_eq x v) x = true <-> given v (fun v => is_value v x).
Proof. intros v x. apply (opt_mask_spec v (fun v x => v_eq x v) (fun v x => is_value v x)). intros a _. rewrite v_eq_spec. split; apply is_value_comm. Qed.
Lemma range_spec : forall r x, opt_mask r (fun r => out_of (fst r) (snd r)) x = true <-> given r (fun r => outside (fst r) (snd r) x).
Proof. intros r x. apply (opt_mask_spec r (fun r => out_of (fst r) (snd r)) (fun r => outside (fst r) (snd r))). intros [a b] _. apply out_of_spec. Qed.
Lemma fill_range_ok : forall v r d, exists p, also_masked p (Plain d) (range_mask r (fill_mask v d)) /\ forall x, p x = true <-> given v (fun v => is_value v x) \/ given r (fun r => outside (fst r) (snd r) x).
Proof.
  intros v r d. eexists. split; [eapply also_trans; [apply fill_mask_ok|apply range_mask_ok; apply fill_mask_ok]|]. intros x. cbn beta. rewrite orb_true_iff, fill_spec, range_spec. reflexivity.
Qed.
Lemma sd_reads : forall t d fill range offset scale, exists out, sd_get_data t d fill range offset scale = Ok out /\
  reads (fun x => given fill (fun v => is_value v x) \/ given range (fun r => outside (fst r) (snd r) x)) (fun q => q * num scale 1 + num offset 0) (Plain d) out.
Proof.
  intros t d fill range offset scale. destruct (fill_range_ok fill range d) as (p & A & P). unfold sd_get_data. set (a := range_mask range (fill_mask fill d)) in *. unfold apply_offset_and_scaling.
  set (o := match offset with Some o => o | None => mkNum 0 true end). set (s := match scale with Some s => s | None => mkNum 1 true end).
  assert (NO : num offset 0 = n_val o) by (destruct offset; reflexivity). assert (NS : num scale 1 = n_val s) by (destruct scale; reflexivity). rewrite NO, NS.
  destruct (Qeqb_spec (n_val o) 0) as [Z|Z], (Qeqb_spec (n_val s) 1) as [Z1|Z1]; cbn [negb orb]; eexists; (split; [reflexivity|]);
    first [eapply reads_id; [exact A|exact P|intros q; rewrite Z, Z1; ring] | eapply reads_ok; [exact A|exact P|intros q; ring]].
Qed.
Lemma modis_reads : forall d fill range offset scale,
  reads (fun x => given fill (fun v => is_value v x) \/ given range (fun r => outside (fst r) (snd r) x)) (fun q => (q - or_default offset 0) * or_default scale 1) (Plain d) (modis_get_data d fill range offset scale).
Proof. intros. destruct (fill_range_ok fill range d) as (p & A & P). eapply reads_ok; [exact A|exact P|reflexivity]. Qed.
Lemma vd_reads : forall d missing_values attr,
  reads (fun x => match missing_values with Some l => exists v, In (Some v) l /\ is_value v x | None => given attr (fun v => is_value v x) end) (fun q => q) (Plain d) (vd_get_data d missing_values attr).
Proof.
  intros d mv attr. unfold vd_get_data. set (l := match mv with Some l => l | None => [attr] end).
  assert (S : forall x, existsb (fun m : option fval => match m with Some v => v_eq v x | None => false end) l = true <-> match mv with Some l => exists v, In (Some v) l /\ is_value v x | None => given attr (fun v => is_value v x) end).
  { intros x. rewrite existsb_exists. unfold l. destruct mv as [k|].
    - split; [intros ([v|] & I & H); [apply v_eq_spec in H; eauto|discriminate]|intros (v & I & H); apply v_eq_spec in H; exists (Some v); auto].
    - unfold given. split; [intros ([v|] & [I|[]] & H); [apply v_eq_spec in H; eauto|discriminate]|intros (v & -> & H); apply v_eq_spec in H; exists (Some v); cbn; auto]. }
  assert (D : forall l (a : varr), an_data (create_masked_array_for_missing_values v_eq a l) = an_data a).
  { clear. unfold create_masked_array_for_missing_values. induction l as [|[v|] l IH]; intros a; cbn [fold_left]; [reflexivity|rewrite IH; reflexivity|apply IH]. }
  split; [rewrite D; reflexivity|]. intros i x m E. exists x, (m || existsb (fun m : option fval => match m with Some v => v_eq v x | None => false end) l).
  split; [apply missing_values_elements; [exact I|]; exists m; auto|]. split; [rewrite orb_true_iff, S; reflexivity|]. intros _. destruct x; cbn; auto. reflexivity.
Qed.
Lemma str_eqb_eq : forall a b, str_eqb a b = true <-> a = b.
Proof. intros a b. unfold str_eqb. destruct (str_eq_dec a b); split; auto; discriminate. Qed.
Lemma caliop_reads : forall d fillvalue format fill range offset scale, ~ or_default scale 1 == 0 ->
  reads (fun x => given (caliop_missing fillvalue format fill) (fun v => is_value v x) \/ given (match range with Some l => pair_of l | None => None end) (fun r => outside (fst r) (snd r) x))
    (fun q => q / or_default scale 1 + or_default offset 0) (Plain d) (caliop_get_data d fillvalue format fill range offset scale).
Proof.
  intros d fv fm fl range offset scale _. unfold caliop_get_data. cbv zeta. set (r := match range with Some l => pair_of l | None => None end).
  destruct (fill_range_ok (caliop_missing fv fm fl) r d) as (p & A & P). eapply reads_ok; [|exact P|reflexivity].
  replace (match range with Some [a; b] => _ | _ => _ end) with (range_mask r (fill_mask (caliop_missing fv fm fl) d)); [exact A|].
  unfold r. destruct range as [[|a [|b [|]]]|]; reflexivity.
Qed.
Lemma caliop_fill_ok : forall fv fm fl v, caliop_missing fv fm fl = Some v <-> caliop_fill fv fm fl v.
Proof.
  intros fv fm fl v. unfold caliop_missing, caliop_fill. destruct fv as [w|]; [split; [intros [= <-]; auto|intros [H|[(H & _)|(H & _)]]; congruence]|].
  assert (L : forall q, lookup_fill fm = Some q -> exists f, fm = Some f /\ In (f, q) caliop_table).
  { intros q. unfold lookup_fill. destruct fm as [f|]; [|discriminate]. destruct (find _ _) as [[g r]|] eqn:F; [|discriminate]. intros [= <-]. apply find_some in F. destruct F as [I E]. apply str_eqb_eq in E. cbn in E. subst g. exists f. split; [auto|exact I]. }
  destruct (lookup_fill fm) as [q|] eqn:E.
  - destruct (L q eq_refl) as (f & -> & I). split; [intros [= <-]; right; left; split; [auto|]; exists f, q; auto|]. intros [H|[(_ & g & r & [= <-] & I2 & ->)|(_ & N & _)]]; [discriminate| |destruct (N f q eq_refl I)].
    do 2 f_equal. clear - I I2. cbn in I, I2. decompose [or] I; decompose [or] I2; try contradiction; congruence.
  - assert (N : forall f q, fm = Some f -> ~ In (f, q) caliop_table).
    { intros f q -> I. unfold lookup_fill in E. destruct (find (fun p => str_eqb (fst p) f) calipso_fill_values) eqn:F; [discriminate|]. assert (X := find_none _ _ F (f, q) I). cbn [fst] in X. assert (str_eqb f f = true) by (apply str_eqb_eq; reflexivity). congruence. }
    split; [intros ->; right; right; auto|]. intros [H|[(_ & f & q & -> & I & _)|(_ & _ & H)]]; [discriminate|destruct (N f q eq_refl I)|exact H].
Qed.
Lemma caliop_reads' : forall d fillvalue format fill range offset scale, ~ or_default scale 1 == 0 ->
  reads (fun x => (exists v, caliop_fill fillvalue format fill v /\ is_value v x) \/ given (match range with Some l => pair_of l | None => None end) (fun r => outside (fst r) (snd r) x))
    (fun q => q / or_default scale 1 + or_default offset 0) (Plain d) (caliop_get_data d fillvalue format fill range offset scale).
Proof.
  intros d fv fm fl range offset scale N. destruct (caliop_reads d fv fm fl range offset scale N) as [L R]. split; [exact L|]. intros i x m E. destruct (R i x m E) as (y & m' & E' & M & V). exists y, m'. split; [exact E'|]. split; [|exact V].
  rewrite M. unfold given. split; (intros [H|[(v & H1 & H2)|H]]; [auto| |auto]); right; left; exists v; (split; [apply caliop_fill_ok; exact H1|exact H2]).
Qed.
Definition op_mask (op : str) (v : Q) (x : fval) : bool :=
  if str_eqb op (lit "<"%string) then v_lt v x else if str_eqb op (lit "<="%string) then v_le v x else if str_eqb op (lit "=="%string) then v_eq x (Some v)
  else if str_eqb op (lit "=>"%string) then v_ge v x else if str_eqb op (lit ">"%string) then v_gt v x else false.
Lemma op_mask_spec : forall op v x, op <> lit ">="%string -> op_mask op v x = true <-> exists q, x = Some q /\ compares op q v.
Proof.
  intros op v x N. unfold op_mask, compares.
  destruct (str_eqb op (lit "<"%string)) eqn:E1; [apply str_eqb_eq in E1; subst op; rewrite v_lt_spec; unfold below; split; [intros (q & -> & H); eauto|]; intros (q & -> & H); exists q; split; auto; decompose [or and] H; try discriminate; auto|].
  destruct (str_eqb op (lit "<="%string)) eqn:E2.
  { apply str_eqb_eq in E2; subst op. destruct x as [q|]; cbn [v_le]; [rewrite Qleb_le|split; [discriminate|intros (? & H & _); discriminate]]. split; [intros H; exists q; split; auto|]. intros (r & [= <-] & H). decompose [or and] H; try discriminate; auto. }
  destruct (str_eqb op (lit "=="%string)) eqn:E3.
  { apply str_eqb_eq in E3; subst op. rewrite v_eq_spec. split; [intros (q & r & -> & [= <-] & H); exists q; split; auto 8|]. intros (q & -> & H). exists q, v. split; [auto|split; [auto|]]. decompose [or and] H; try discriminate; auto. }
  destruct (str_eqb op (lit "=>"%string)) eqn:E4.
  { apply str_eqb_eq in E4; subst op. destruct x as [q|]; cbn [v_ge]; [rewrite Qleb_le|split; [discriminate|intros (? & H & _); discriminate]]. split; [intros H; exists q; split; auto 8|]. intros (r & [= <-] & H). decompose [or and] H; try discriminate; auto. }
  destruct (str_eqb op (lit ">"%string)) eqn:E5.
  { apply str_eqb_eq in E5; subst op. rewrite v_gt_spec. unfold above. split; [intros (q & -> & H); exists q; split; auto 8|]. intros (q & -> & H); exists q; split; auto; decompose [or and] H; try discriminate; auto. }
  split; [discriminate|]. intros (q & -> & H). assert (X : forall s, str_eqb op s = false -> op <> s) by (intros s H1 H2; apply str_eqb_eq in H2; congruence).
  apply X in E1, E2, E3, E4, E5. exfalso. tauto.
Qed.
Lemma missop_ok : forall missing missop a, array_ok a -> also_masked (opt_mask missing (fun v => opt_mask missop (fun op => op_mask op v))) a (missop_mask missing missop a).
Proof.
  intros [v|] [op|] a H; try (apply also_refl; exact H). apply (also_ext (op_mask op v)); [reflexivity|]. unfold op_mask, missop_mask. destruct (str_eqb op _); [apply (mask_if_ok (v_lt v)); auto|]. destruct (str_eqb op _); [apply (mask_if_ok (v_le v)); auto|].
  destruct (str_eqb op _); [apply (mask_if_ok (fun x => v_eq x (Some v))); auto|]. destruct (str_eqb op _); [apply (mask_if_ok (v_ge v)); auto|]. destruct (str_eqb op _); [apply (mask_if_ok (v_gt v)); auto|]. apply also_refl, H.
Qed.
Lemma cloudsat_sds_reads : forall d fill missing missop range factor offset, ~ or_default factor 1 == 0 -> missop <> Some (lit ">="%string) ->
  reads (fun x => given fill (fun v => is_value v x) \/ given missing (fun v => given missop (fun op => exists q, x = Some q /\ compares op q v)) \/ given range (fun r => outside (fst r) (snd r) x))
    (fun q => (q - or_default offset 0) / or_default factor 1) (Plain d) (cloudsat_sds_get_data d fill missing missop range factor offset).
Proof.
  intros d fill missing missop range factor offset _ N. unfold cloudsat_sds_get_data, cloudsat_scale.
  assert (A1 := fill_mask_ok fill d). assert (A2 := missop_ok missing missop (fill_mask fill d) (proj1 A1)). assert (A3 := range_mask_ok range _ (proj1 A2)).
  eapply reads_ok; [eapply also_trans; [exact A1|eapply also_trans; [exact A2|exact A3]]| |reflexivity]. intros x. cbn beta. rewrite !orb_true_iff, fill_spec, range_spec.
  rewrite (opt_mask_spec missing _ (fun v x => given missop (fun op => exists q, x = Some q /\ compares op q v)) x); [reflexivity|]. intros v _.
  apply (opt_mask_spec missop (fun op => op_mask op v) (fun op x => exists q, x = Some q /\ compares op q v)). intros op EO. apply op_mask_spec. congruence.
Qed.
Lemma cloudsat_vds_reads : forall d missing range factor offset, ~ or_default factor 1 == 0 ->
  reads (fun x => given missing (fun v => is_value v x) \/ given range (fun r => outside (fst r) (snd r) x)) (fun q => (q - or_default offset 0) / or_default factor 1) (Plain d) (cloudsat_vds_get_data d missing range factor offset).
Proof. intros. destruct (fill_range_ok missing range d) as (p & A & P). eapply reads_ok; [exact A|exact P|reflexivity]. Qed.
