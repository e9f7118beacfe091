(** Proofs for C76: marks, folding and the extent of the diagram; data with two dimensions. *)
From Coq Require Import Reals String Lra Psatz.
From Verif Require Import Base PyStr UtilModel UtilSpec StatsModel StatsSpec StatsProofs TaylorModel TaylorSpec TaylorProofs Taylor2Proofs.
Open Scope R_scope.

Lemma rb_iff : forall P Q (d : {P} + {Q}), (Q -> ~ P) -> rb d = true <-> P.
Proof. intros P Q [p|q] N; cbn; split; auto; [discriminate|intros p; destruct (N q p)]. Qed.
Lemma rv_ltb_iff : forall x y, rv_ltb x y = true <-> exists a b, x = Some a /\ y = Some b /\ a < b.
Proof.
  intros [a|] [b|]; cbn; try (split; [discriminate|intros (? & ? & ? & ? & _); discriminate]). rewrite (rb_iff _ _ (Rlt_dec a b)) by auto.
  split; [eauto|]. intros (? & ? & [= <-] & [= <-] & H). exact H.
Qed.
Lemma truthy_iff : forall x, truthy x = true <-> exists v, x = Some v /\ v <> 0.
Proof. intros [v|]; cbn; [|split; [discriminate|intros (? & ? & _); discriminate]]. destruct (Req_EM_T v 0) as [->|N]; cbn; [split; [discriminate|intros (? & [= <-] & H); lra]|]. split; eauto. Qed.
Lemma past_iff : forall o, past o = true <-> -1 < o_extend o.
Proof. intros o. apply rb_iff. auto. Qed.
Lemma over_iff : forall o, over o = true <-> exists m, bias_limit o m.
Proof.
  intros o. unfold over, has_bias, bias_limit. rewrite andb_true_iff, truthy_iff. destruct (o_bias o); split.
  - intros [_ (m & E & N)]. exists m. split; [discriminate|auto].
  - intros (m & _ & E & N). eauto.
  - intros [? _]. discriminate.
  - intros (m & N & _). contradiction.
Qed.
Lemma limit_is : forall o m, bias_limit o m -> limit o = m.
Proof. intros o m (_ & E & _). unfold limit. rewrite E. reflexivity. Qed.
Lemma flag_at : forall sfx hit ls vs i l v, nth_error ls i = Some l -> nth_error vs i = Some v -> nth_error (flag sfx hit ls vs) i = Some (l ++ if hit v then lit sfx else []).
Proof.
  unfold flag. induction ls as [|a ls IH]; intros [|b vs] [|i] l v E F; try discriminate; cbn in *; [|exact (IH vs i l v E F)].
  injection E as ->. injection F as ->. destruct (hit v); [reflexivity|]. rewrite app_nil_r. reflexivity.
Qed.
Lemma iff_false : forall b P, (b = true <-> P) -> b = false <-> ~ P.
Proof. intros [] P H; split; intros K; try discriminate; [destruct (K (proj1 H eq_refl))|intros p; apply H in p; discriminate|reflexivity]. Qed.
Lemma labels_at : forall o labels data cs gs bs i l d c g b, nth_error labels i = Some l -> nth_error data i = Some d ->
  nth_error cs i = Some c -> nth_error gs i = Some g -> nth_error bs i = Some b ->
  exists base lab, base_label l d base /\ nth_error (final_labels o (base_labels labels data) cs gs bs) i = Some lab /\
    marked base [(-1 < o_extend o /\ below c (o_extend o), " $-$"%string); ((exists m, radial o gs bs = Some m /\ m <> 0 /\ above g m), " $>$"%string);
                 ((exists m, bias_limit o m /\ below b (- m)), " B-"%string); ((exists m, bias_limit o m /\ above b m), " B+"%string)] lab.
Proof.
  intros o labels data cs gs bs i l d c g b El Ed Ec Eg Eb.
  assert (B : nth_error (base_labels labels data) i = Some (label_or l (ts_name d))).
  { unfold base_labels. clear - El Ed. revert data i El Ed. induction labels as [|a labels IH]; intros [|e data] [|i] El Ed; try discriminate; cbn in *; [injection El as ->; injection Ed as ->; reflexivity|exact (IH data i El Ed)]. }
  exists (label_or l (ts_name d)). unfold final_labels. set (gm := radial o gs bs).
  set (b1 := past o && rv_ltb c (Some (o_extend o))). set (b2 := truthy gm && rv_ltb gm g). set (b3 := over o && rv_ltb b (Some (- limit o))). set (b4 := over o && rv_ltb (Some (limit o)) b).
  set (L1 := if past o then _ else _). assert (H1 : nth_error L1 i = Some (label_or l (ts_name d) ++ if b1 then lit " $-$" else [])).
  { subst L1 b1. destruct (past o); cbn [andb]; [exact (flag_at _ _ _ _ _ _ _ B Ec)|]. rewrite app_nil_r. exact B. }
  set (L2 := if truthy gm then _ else _). assert (H2 : nth_error L2 i = Some ((label_or l (ts_name d) ++ if b1 then lit " $-$" else []) ++ if b2 then lit " $>$" else [])).
  { subst L2 b2. destruct (truthy gm); cbn [andb]; [exact (flag_at " $>$" (fun g => rv_ltb gm g) _ _ _ _ _ H1 Eg)|]. rewrite app_nil_r. exact H1. }
  exists ((((label_or l (ts_name d) ++ if b1 then lit " $-$" else []) ++ if b2 then lit " $>$" else []) ++ if b3 then lit " B-" else []) ++ if b4 then lit " B+" else []).
  split; [|split].
  - destruct l as [[|x l]|]; [right; split; [right; reflexivity|reflexivity]|left; exists (x :: l); split; [reflexivity|]; split; [discriminate|reflexivity]|right; split; [left; reflexivity|reflexivity]].
  - subst b3 b4. destruct (over o); cbn [andb]; [exact (flag_at " B+" _ _ _ _ _ _ (flag_at " B-" _ _ _ _ _ _ H2 Eb) Eb)|]. rewrite !app_nil_r. exact H2.
  - exists [b1; b2; b3; b4]. split.
    + constructor; [|constructor; [|constructor; [|constructor; [|constructor]]]]; cbn [fst].
      * subst b1. rewrite andb_true_iff, past_iff, rv_ltb_iff. unfold below. split; intros [P (v & H)]; (split; [exact P|]); [destruct H as (? & -> & [= <-] & H); eauto|exists v, (o_extend o); destruct H; auto].
      * subst b2. rewrite andb_true_iff, truthy_iff, rv_ltb_iff. unfold above. split.
        -- intros [(v & E & N) (x & y & E' & E2 & Lt)]. exists v. rewrite E in *. injection E' as <-. eauto 6.
        -- intros (m & E & N & v & -> & Lt). split; [eauto|]. exists m, v. auto.
      * subst b3. rewrite andb_true_iff, over_iff, rv_ltb_iff. unfold below. split.
        -- intros [(m & BL) (x & y & -> & [= <-] & Lt)]. exists m. rewrite (limit_is o m BL) in Lt. eauto.
        -- intros (m & BL & v & -> & Lt). split; [eauto|]. exists v, (- limit o). rewrite (limit_is o m BL). auto.
      * subst b4. rewrite andb_true_iff, over_iff, rv_ltb_iff. unfold above. split.
        -- intros [(m & BL) (x & y & [= <-] & -> & Lt)]. exists m. rewrite (limit_is o m BL) in Lt. eauto.
        -- intros (m & BL & v & -> & Lt). split; [eauto|]. exists (limit o), v. rewrite (limit_is o m BL). auto.
    + cbn [combine map fst snd concat]. rewrite app_nil_r, <- !app_assoc. reflexivity.
Qed.
Lemma f2_map : forall {A B} (R : A -> B -> Prop) (f : A -> B) l, (forall x, R x (f x)) -> Forall2 R l (map f l).
Proof. induction l; intros H; constructor; auto. Qed.
Lemma f2_same : forall {A} (R : A -> A -> Prop) l, (forall x, R x x) -> Forall2 R l l.
Proof. induction l; intros H; constructor; auto. Qed.
Lemma folded_corrs : forall o cs, o_fold o = true -> Forall2 (folded_corr (o_extend o)) cs (final_corrs o cs).
Proof.
  intros o cs F. unfold final_corrs. rewrite F, andb_true_r. destruct (past o) eqn:P.
  - apply past_iff in P. unfold rb. destruct (Req_EM_T (o_extend o) 0) as [Z|Z]; apply f2_map; intros [c|]; cbn; auto; eexists; (split; [reflexivity|]); repeat split; intros; lra || auto; contradiction.
  - apply (iff_false _ _ (past_iff o)) in P. apply f2_same. intros [c|]; cbn; auto. exists c. split; [reflexivity|]. repeat split; intros; auto; lra.
Qed.
Lemma folded_gammas : forall o gm gs, o_fold o = true -> Forall2 (folded_gamma gm) gs (final_gammas o gm gs).
Proof.
  intros o gm gs F. unfold final_gammas. rewrite F, andb_true_r. destruct (truthy gm) eqn:T.
  - apply truthy_iff in T. destruct T as (m & -> & N). apply f2_map. intros [g|]; cbn; auto. eauto.
  - apply (iff_false _ _ (truthy_iff gm)) in T. apply f2_same. intros [g|]; cbn; auto. destruct gm as [m|]; auto. exists g. split; [reflexivity|]. intros N. destruct T. eauto.
Qed.
Lemma folded_biases : forall o bs, o_fold o = true -> Forall2 (folded_bias o) bs (final_biases o bs).
Proof.
  intros o bs F. unfold final_biases. rewrite F, andb_true_r. destruct (over o) eqn:T.
  - apply over_iff in T. destruct T as (m & BL). rewrite (limit_is o m BL). apply f2_map. intros b. split; [|intros N; destruct (N m BL)]. intros m' BL'. destruct BL as (_ & E & _), BL' as (_ & E' & _). rewrite E in E'. injection E' as <-. reflexivity.
  - apply (iff_false _ _ (over_iff o)) in T. apply f2_same. intros b. split; [|reflexivity]. intros m BL. destruct T. eauto.
Qed.
Lemma as_is_ok : forall data o p, taylor data o = Ok p -> exists p0 ref rest corrs, taylor data (as_is o) = Ok p0 /\ data_of o data = ref :: rest /\ map_r (fun d => corrcoef01 d ref) (ref :: rest) = Ok corrs /\
  p_corrs p0 = map (clamp (-1) 1) corrs /\ p_gammas p0 = raw_gammas ref (ref :: rest) /\ p_stdbiases p0 = raw_biases ref (ref :: rest).
Proof.
  intros data o p T. destruct (taylor_inv _ _ _ T) as (labels & ref & rest & corrs & EL & BF & ED & EC & _).
  destruct (taylor_ok data (as_is o) labels ref rest corrs EL BF ED EC) as [p0 T0]. exists p0, ref, rest, corrs. split; [exact T0|]. split; [exact ED|]. split; [exact EC|].
  destruct (taylor_inv _ _ _ T0) as (labels' & ref' & rest' & corrs' & _ & _ & ED' & EC' & _ & PC & PG & PB & _). change (data_of (as_is o) data) with (data_of o data) in ED'.
  rewrite ED in ED'. injection ED' as <- <-. rewrite EC in EC'. injection EC' as <-. unfold final_corrs in PC. unfold final_gammas in PG. unfold final_biases in PB. cbn [as_is o_fold] in *. rewrite andb_false_r in PC, PG, PB. auto.
Qed.
Lemma marks_ok : forall data o p, taylor data o = Ok p -> exists p0, taylor data (as_is o) = Ok p0 /\
  (o_fold o = false -> p_corrs p = p_corrs p0 /\ p_gammas p = p_gammas p0 /\ p_stdbiases p = p_stdbiases p0) /\
  (o_fold o = true -> Forall2 (folded_corr (o_extend o)) (p_corrs p0) (p_corrs p) /\ Forall2 (folded_gamma (p_gammamax p)) (p_gammas p0) (p_gammas p) /\ Forall2 (folded_bias o) (p_stdbiases p0) (p_stdbiases p)) /\
  forall i labels l d c g b, o_labels o = Some labels -> nth_error labels i = Some l -> nth_error data i = Some d ->
    nth_error (p_corrs p0) i = Some c -> nth_error (p_gammas p0) i = Some g -> nth_error (p_stdbiases p0) i = Some b ->
    exists base lab, base_label l d base /\ nth_error (p_labels p) i = Some lab /\
      marked base [(-1 < o_extend o /\ below c (o_extend o), " $-$"%string); ((exists m, p_gammamax p = Some m /\ m <> 0 /\ above g m), " $>$"%string);
                   ((exists m, bias_limit o m /\ below b (- m)), " B-"%string); ((exists m, bias_limit o m /\ above b m), " B+"%string)] lab.
Proof.
  intros data o p T. destruct (as_is_ok data o p T) as (p0 & ref & rest & corrs & T0 & ED & EC & PC0 & PG0 & PB0). exists p0. split; [exact T0|].
  destruct (taylor_inv _ _ _ T) as (labels & ref' & rest' & corrs' & EL & BF & ED' & EC' & PL & PC & PG & PB & PM). rewrite ED in ED'. injection ED' as <- <-. rewrite EC in EC'. injection EC' as <-.
  rewrite PC0, PG0, PB0, PL, PC, PG, PB, PM. split; [|split].
  - intros F. unfold final_corrs, final_gammas, final_biases. rewrite F, !andb_false_r. auto.
  - intros F. split; [exact (folded_corrs o _ F)|]. split; [exact (folded_gammas o _ _ F)|exact (folded_biases o _ F)].
  - intros i labels' l d c g b EL' El Ed Ec Eg Eb. rewrite EL in EL'. injection EL' as <-. exact (labels_at o labels data _ _ _ i l d c g b El Ed Ec Eg Eb).
Qed.

(** ** The extent *)
Lemma extreme_max : forall l, (extreme Rmax l = None /\ forall x, ~ In (Some x) l) \/ exists m, extreme Rmax l = Some m /\ In (Some m) l /\ forall x, In (Some x) l -> x <= m.
Proof.
  unfold extreme. set (f := fun acc x => _).
  assert (K : forall l acc, (fold_left f l acc = None /\ acc = None /\ forall x, ~ In (Some x) l) \/ exists m, fold_left f l acc = Some m /\ (In (Some m) l \/ acc = Some m) /\ (forall x, In (Some x) l \/ acc = Some x -> x <= m)).
  { induction l as [|x l IH]; intros acc; cbn [fold_left].
    - destruct acc as [a|]; [right; exists a; split; [reflexivity|]; split; [auto|]; intros x [[]|[= <-]]; lra|left; auto].
    - destruct (IH (f acc x)) as [(E & A & N)|(m & E & I & M)].
      + left. split; [exact E|]. destruct acc as [a|], x as [x|]; cbn in A; try discriminate. split; [reflexivity|]. intros y [?|?]; [discriminate|firstorder].
      + right. exists m. split; [exact E|]. assert (FX : f acc x = match acc, x with Some a, Some x => Some (Rmax a x) | None, x => x | a, None => a end) by reflexivity. rewrite FX in *. split.
        * destruct I as [I|I]; [left; right; exact I|]. destruct acc as [a|], x as [x|]; try discriminate; injection I as <-; [|auto|left; left; reflexivity].
          unfold Rmax. destruct (Rle_dec a x); [left; left; reflexivity|auto].
        * intros y [[->|I']| ->].
          -- destruct acc as [a|]; [|apply M; auto]. apply Rle_trans with (Rmax a y); [apply Rmax_r|]. apply M. auto.
          -- apply M. auto.
          -- destruct x as [x|]; [|apply M; auto]. apply Rle_trans with (Rmax y x); [apply Rmax_l|]. apply M. auto. }
  intros l. destruct (K l None) as [(E & _ & N)|(m & E & [I|I] & M)]; [left; auto|right; exists m; split; [exact E|]; split; [exact I|]; intros x H; apply M; auto|discriminate].
Qed.
Lemma kept_mask : forall l, kept (mask_of l) l = filter isfinite l.
Proof. unfold kept, mask_of. induction l as [|[x|] l IH]; cbn; [reflexivity|f_equal; exact IH|exact IH]. Qed.
Lemma inside_default : forall data o p, o_fold o = false -> o_gammamax o = None -> o_bias o = None -> taylor data o = Ok p ->
  (forall g, In (Some g) (p_gammas p) -> exists m, p_gammamax p = Some m /\ g <= m) /\ (forall m, p_gammamax p = Some m -> In (Some m) (p_gammas p)).
Proof.
  intros data o p F G B T. destruct (taylor_inv _ _ _ T) as (labels & ref & rest & corrs & EL & BF & ED & EC & PL & PC & PG & PB & PM). unfold final_gammas in PG. rewrite F, andb_false_r in PG. rewrite PM, PG.
  unfold radial, excluded, has_bias. rewrite G, B. cbn [truthy andb]. rewrite kept_mask. set (gs := raw_gammas ref (ref :: rest)).
  destruct (extreme_max (filter isfinite gs)) as [[E N]|(m & E & I & M)]; rewrite E.
  - split; [|discriminate]. intros g I. destruct (N g). apply filter_In. auto.
  - apply filter_In in I. split; [|intros ? [= <-]; apply I]. intros g J. exists m. split; [reflexivity|]. apply M. apply filter_In. auto.
Qed.
Lemma inside_folded : forall data o p, o_fold o = true -> taylor data o = Ok p ->
  (forall c, In (Some c) (p_corrs p) -> -1 <= c /\ o_extend o <= c) /\ (forall c, In (Some c) (p_corrs p) -> c <= 1 \/ c = o_extend o) /\
  (forall g m, In (Some g) (p_gammas p) -> p_gammamax p = Some m -> m <> 0 -> g <= m).
Proof.
  intros data o p F T. destruct (taylor_inv _ _ _ T) as (labels & ref & rest & corrs & EL & BF & ED & EC & PL & PC & PG & PB & PM). rewrite PM, PG, PC.
  assert (CR : forall c, In (Some c) (map (clamp (-1) 1) corrs) -> -1 <= c <= 1).
  { intros c I. apply in_map_iff in I. destruct I as ([x|] & E & _); [|discriminate]. cbn in E. injection E as <-. split; [apply Rmin_glb; [apply Rmax_r|lra]|apply Rmin_r]. }
  assert (CC : forall c, In (Some c) (final_corrs o (map (clamp (-1) 1) corrs)) -> (-1 <= c /\ o_extend o <= c) /\ (c <= 1 \/ c = o_extend o)).
  { intros c I. unfold final_corrs in I. rewrite F, andb_true_r in I. destruct (past o) eqn:P.
    - apply past_iff in P. unfold rb in I. destruct (Req_EM_T (o_extend o) 0) as [Z|Z].
      + apply in_map_iff in I. destruct I as ([x|] & E & I); [|discriminate]. cbn in E. injection E as <-. apply CR in I. pose proof (Rabs_pos x). assert (Rabs x <= 1) by (apply Rabs_le; lra). split; [lra|left; lra].
      + apply in_map_iff in I. destruct I as ([x|] & E & I); [|discriminate]. cbn in E. injection E as <-. apply CR in I. pose proof (Rmax_r x (o_extend o)). pose proof (Rmax_l x (o_extend o)). split; [lra|].
        unfold Rmax. destruct (Rle_dec x (o_extend o)); [right; reflexivity|left; lra].
    - apply (iff_false _ _ (past_iff o)) in P. apply CR in I. split; [lra|left; lra]. }
  split; [intros c I; exact (proj1 (CC c I))|]. split; [intros c I; exact (proj2 (CC c I))|].
  intros g m I E N. unfold final_gammas in I. rewrite F, andb_true_r, E in I. assert (TR : truthy (Some m) = true) by (apply truthy_iff; eauto). rewrite TR in I. apply in_map_iff in I. destruct I as ([x|] & EE & _); [|discriminate].
  injection EE as <-. apply Rmin_r.
Qed.

(** ** Two dimensions *)
Lemma full_cells : forall d vs, full_grid d vs -> getmaskarray (ts_values d) = repeat false (length vs) /\ combine (an_data (ts_values d)) (repeat false (length vs)) = map (fun v => (Some v, false)) vs /\ length (an_data (ts_values d)) = length vs.
Proof.
  intros d vs ([OK V] & NM & _). unfold missing_at in NM. pose proof (gma_length (ts_values d) OK) as G. unfold f_len in G. pose proof (all_false _ NM) as M. rewrite G in M. rewrite M, (filter_false _ _ eq_refl) in V.
  assert (LV : length (an_data (ts_values d)) = length vs) by (rewrite V, map_length; reflexivity). split; [rewrite M, LV; reflexivity|]. split; [|exact LV]. rewrite V. clear. induction vs; cbn; [reflexivity|]. f_equal. exact IHvs.
Qed.
Lemma valid_full : forall vs, valid (map (fun v => (Some v, false)) vs) = map Some vs.
Proof. unfold valid. induction vs as [|v vs IH]; cbn; [reflexivity|]. f_equal. exact IH. Qed.
Lemma orl_falses : forall n m, exists k, orl (repeat false n) (repeat false m) = repeat false k /\ (n <= m -> k = n)%nat /\ (m <= n -> k = m)%nat.
Proof.
  intros n m. exists (Nat.min n m). split; [|split; lia]. revert m. induction n as [|n IH]; intros [|m]; try reflexivity. unfold orl in *. cbn. rewrite IH. reflexivity.
Qed.
Lemma two_rows : forall d ref vs ws, full_grid d vs -> full_grid ref ws -> (2 <= ts_rows d)%nat -> ts_cols d = ts_cols ref -> (2 <= ts_cols d)%nat ->
  codeviation (firstn (ts_cols d) (skipn (ts_cols d) vs)) (firstn (ts_cols d) (skipn (ts_cols d) vs)) <> 0 ->
  corrcoef01 d ref = Ok (right_corr (firstn (ts_cols d) vs) (firstn (ts_cols d) (skipn (ts_cols d) vs))).
Proof.
  intros d ref vs ws GD GR R2 C C2 N. destruct (full_cells d vs GD) as (MD & CD & LD). destruct (full_cells ref ws GR) as (MR & CR & LR). destruct GD as (VD & ND & SD). destruct GR as (VR & NR & SR).
  unfold corrcoef01. rewrite <- C, Nat.eqb_refl. cbn [negb].
  set (ab := if (ts_rows d =? ts_rows ref)%nat then _ else _). assert (EA : fst ab = repeat false (length vs)).
  { subst ab. rewrite MD, MR. destruct (Nat.eqb_spec (ts_rows d) (ts_rows ref)) as [E|_]; [|reflexivity]. destruct (orl_falses (length vs) (length ws)) as (k & -> & K & _). rewrite K; [reflexivity|]. rewrite SD, SR, E, C. lia. }
  destruct ab as [ma mb]. cbn [fst] in EA. subst ma. rewrite CD. destruct (ts_rows d) as [|[|r]]; try lia. cbn [rows_of app]. f_equal.
  rewrite skipn_map, !firstn_map.
  assert (L2 : length (firstn (ts_cols d) (skipn (ts_cols d) vs)) = ts_cols d) by (rewrite firstn_length, skipn_length, SD; nia).
  apply row_correlation_ok; [|apply valid_full|apply valid_full|lia|exact N].
  rewrite !map_map. cbn. assert (L1 : length (firstn (ts_cols d) vs) = ts_cols d) by (rewrite firstn_length, SD; nia). revert L1 L2. generalize (firstn (ts_cols d) vs) (firstn (ts_cols d) (skipn (ts_cols d) vs)). intros l m L1 L2. rewrite <- L1 in L2. clear - L2.
  revert m L2. induction l as [|a l IH]; intros [|b m] L2; cbn in *; try lia; [reflexivity|]. f_equal. apply IH. lia.
Qed.
Lemma map_r_at : forall {A B} (f : A -> res B) l ys, map_r f l = Ok ys -> forall i x, nth_error l i = Some x -> exists y, nth_error ys i = Some y /\ f x = Ok y.
Proof.
  induction l as [|a l IH]; intros ys H i x E; [destruct i; discriminate|]. cbn in H. destruct (f a) as [b|] eqn:EF; [|discriminate]. cbn in H. destruct (map_r f l) as [bs|] eqn:EM; [|discriminate]. injection H as <-.
  destruct i as [|i]; cbn in E; [injection E as ->; exists b; auto|]. exact (IH bs eq_refl i x E).
Qed.
Lemma two_dimensional_ok : forall ref rest o p ws, taylor (ref :: rest) o = Ok p -> o_fold o = false -> o_logv o = false -> full_grid ref ws ->
  forall i d vs, nth_error (ref :: rest) i = Some d -> full_grid d vs -> (2 <= ts_rows d)%nat -> (2 <= ts_cols d)%nat ->
  let row0 := firstn (ts_cols d) vs in let row1 := firstn (ts_cols d) (skipn (ts_cols d) vs) in
  codeviation row0 row0 <> 0 -> codeviation row1 row1 <> 0 -> nth_error (p_corrs p) i = Some (Some (correlation row0 row1)).
Proof.
  intros ref rest o p ws T F LV GR i d vs E GD R2 C2 row0 row1 N0 N1. destruct (taylor_inv _ _ _ T) as (labels & ref' & rest' & corrs & _ & _ & ED & EC & _ & PC & _). unfold data_of in ED. rewrite LV in ED. injection ED as <- <-.
  destruct (map_r_at _ _ _ EC i d E) as (y & Ey & Ec). rewrite PC. unfold final_corrs. rewrite F, andb_false_r. rewrite (map_nth_error (clamp (-1) 1) i corrs Ey).
  assert (C : ts_cols d = ts_cols ref) by (unfold corrcoef01 in Ec; destruct (Nat.eqb_spec (ts_cols d) (ts_cols ref)); [assumption|discriminate]).
  rewrite (two_rows d ref vs ws GD GR R2 C C2 N1) in Ec. injection Ec as <-. fold row0 row1. unfold right_corr. destruct (Req_EM_T (codeviation row0 row0) 0); [contradiction|]. f_equal. apply clamp_range.
  apply corr_range; try assumption. unfold row0, row1. destruct GD as (_ & _ & SD). rewrite !firstn_length, skipn_length, SD. nia.
Qed.
