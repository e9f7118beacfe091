(** Proofs for C76: the diagram. *)
From Coq Require Import Reals String Lra Psatz.
From Verif Require Import Base PyStr UtilModel UtilSpec StatsModel StatsSpec StatsProofs TaylorModel TaylorSpec TaylorProofs.
Open Scope R_scope.

(** ** The steps of the constructor *)
Definition data_of (o : topts) (data : list tset) : list tset := if o_logv o then map log_set data else data.
Definition has_bias (o : topts) : bool := match o_bias o with Some _ => true | None => false end.
Definition bias_fine (o : topts) (data : list tset) : Prop :=
  match o_bias o with None => True | Some BiasOther => False | Some BiasColour => o_colors o = false /\ (1 < length data)%nat | Some _ => (1 < length data)%nat end.
Definition raw_gammas (ref : tset) (data : list tset) : list rv := map (fun d => rv_div (np_std (ts_values d)) (np_std (ts_values ref))) data.
Definition raw_biases (ref : tset) (data : list tset) : list rv := map (fun d => rv_div (rv_sub (np_mean (ts_values d)) (np_mean (ts_values ref))) (np_std (ts_values ref))) data.
Definition excluded (o : topts) (gammas biases : list rv) : list bool :=
  let mask := mask_of gammas in
  let mask := if truthy (o_gammamax o) && negb (o_fold o) then orl mask (map (fun g => rv_ltb (o_gammamax o) g) gammas) else mask in
  if has_bias o then
    let mask := orl mask (mask_of biases) in
    if truthy (o_stdbiasmax o) then orl mask (map (fun s => rv_ltb (o_stdbiasmax o) (rv_abs s)) biases) else mask
  else mask.
Definition radial (o : topts) (gammas biases : list rv) : rv := if truthy (o_gammamax o) then o_gammamax o else extreme Rmax (kept (excluded o gammas biases) gammas).
Definition past (o : topts) : bool := rb (Rlt_dec (-1) (o_extend o)).
Definition over (o : topts) : bool := has_bias o && truthy (o_stdbiasmax o).
Definition limit (o : topts) : R := match o_stdbiasmax o with Some m => m | None => 0 end.
Definition final_labels (o : topts) (labels : list str) (corrs gammas biases : list rv) : list str :=
  let gm := radial o gammas biases in
  let labels := if past o then flag " $-$" (fun c => rv_ltb c (Some (o_extend o))) labels corrs else labels in
  let labels := if truthy gm then flag " $>$" (fun g => rv_ltb gm g) labels gammas else labels in
  if over o then flag " B+" (fun s => rv_ltb (Some (limit o)) s) (flag " B-" (fun s => rv_ltb s (Some (- limit o))) labels biases) biases else labels.
Definition final_corrs (o : topts) (corrs : list rv) : list rv :=
  if past o && o_fold o then if rb (Req_EM_T (o_extend o) 0) then map rv_abs corrs else map (option_map (fun c => Rmax c (o_extend o))) corrs else corrs.
Definition final_gammas (o : topts) (gm : rv) (gammas : list rv) : list rv :=
  if truthy gm && o_fold o then map (fun g => match g, gm with Some g, Some m => Some (Rmin g m) | _, _ => None end) gammas else gammas.
Definition final_biases (o : topts) (biases : list rv) : list rv :=
  if over o && o_fold o then map (option_map (fun s => Rmax (Rmin s (limit o)) (- limit o))) biases else biases.
Definition base_labels (labels : list (option str)) (data : list tset) : list str := map (fun p => label_or (fst p) (ts_name (snd p))) (combine labels data).

Lemma data_of_length : forall o data, length (data_of o data) = length data.
Proof. intros o data. unfold data_of. destruct (o_logv o); [apply map_length|reflexivity]. Qed.
Lemma taylor_inv : forall data o p, taylor data o = Ok p -> exists labels ref rest corrs,
  o_labels o = Some labels /\ bias_fine o data /\ data_of o data = ref :: rest /\ map_r (fun d => corrcoef01 d ref) (ref :: rest) = Ok corrs /\
  let cs := map (clamp (-1) 1) corrs in let gs := raw_gammas ref (ref :: rest) in let bs := raw_biases ref (ref :: rest) in
  p_labels p = final_labels o (base_labels labels data) cs gs bs /\ p_corrs p = final_corrs o cs /\ p_gammas p = final_gammas o (radial o gs bs) gs /\
  p_stdbiases p = final_biases o bs /\ p_gammamax p = radial o gs bs.
Proof.
  intros data o p H. unfold taylor in H. destruct (o_labels o) as [labels|] eqn:EL; [|discriminate]. cbv zeta in H. fold (data_of o data) in H.
  pose proof (data_of_length o data) as DL. destruct (data_of o data) as [|ref rest] eqn:ED.
  { cbn in H. exfalso. destruct (o_bias o) as [[]|]; try discriminate. destruct (o_colors o); discriminate. }
  assert (EG : map (fun s => rv_div s (np_std (ts_values ref))) (map (fun d => np_std (ts_values d)) (ref :: rest)) = raw_gammas ref (ref :: rest)) by (rewrite map_map; reflexivity).
  assert (EB : map (fun m => rv_div (rv_sub m (np_mean (ts_values ref))) (np_std (ts_values ref))) (map (fun d => np_mean (ts_values d)) (ref :: rest)) = raw_biases ref (ref :: rest)) by (rewrite map_map; reflexivity).
  assert (EM : map (fun d => np_mean (ts_values d)) (ref :: rest) = np_mean (ts_values ref) :: map (fun d => np_mean (ts_values d)) rest) by reflexivity.
  assert (ES : map (fun d => np_std (ts_values d)) (ref :: rest) = np_std (ts_values ref) :: map (fun d => np_std (ts_values d)) rest) by reflexivity.
  rewrite EM in H, EB. rewrite ES in H, EG.
  unfold final_labels, final_corrs, final_gammas, final_biases, over, radial, excluded, bias_fine, has_bias, past, limit, base_labels.
  destruct (o_bias o) as [[]|]; try discriminate; try (destruct (o_colors o); [discriminate|]); cbv iota beta in H; rewrite EG, EB in H;
    destruct (map_r (fun d => corrcoef01 d ref) (ref :: rest)) as [corrs|] eqn:EC; try discriminate; cbn [bind] in H;
    destruct (length (ref :: rest) <=? 1)%nat eqn:EN; try discriminate; cbn [andb] in H; injection H as <-; try (apply Nat.leb_gt in EN; rewrite DL in EN);
    exists labels, ref, rest, corrs; (split; [reflexivity|]; split; [auto|]; split; [reflexivity|]; split; [exact EC|]); cbv zeta; repeat split; reflexivity.
Qed.
Lemma taylor_ok : forall data o labels ref rest corrs, o_labels o = Some labels -> bias_fine o data -> data_of o data = ref :: rest -> map_r (fun d => corrcoef01 d ref) (ref :: rest) = Ok corrs ->
  exists p, taylor data o = Ok p.
Proof.
  intros data o labels ref rest corrs EL BF ED EC. pose proof (data_of_length o data) as DL. unfold taylor. rewrite EL. cbv zeta. fold (data_of o data). rewrite ED in *.
  unfold bias_fine in BF. destruct (o_bias o) as [[]|]; try contradiction; try (destruct BF as [-> BF]); cbn [map]; rewrite EC; cbn [bind].
  all: try (replace (length (ref :: rest) <=? 1)%nat with false by (symmetry; apply Nat.leb_gt; lia)); cbn [andb]; eexists; reflexivity.
Qed.

(** ** The statistics *)
Lemma mean_ok : forall d xs, has_values d xs -> xs <> [] -> np_mean (ts_values d) = Some (mean xs).
Proof. intros d xs [_ V] N. unfold np_mean, compressed. rewrite V, (proj2 (all_finite_some (map Some xs) xs) eq_refl). destruct xs; [contradiction|]. rewrite r_mean_mean. reflexivity. Qed.
Lemma std_ok : forall d xs, has_values d xs -> (2 <= length xs)%nat -> np_std (ts_values d) = Some (deviation xs).
Proof.
  intros d xs [_ V] N. unfold np_std, compressed. rewrite V, (proj2 (all_finite_some (map Some xs) xs) eq_refl). destruct xs as [|x [|y l]]; cbn [length] in N; try lia.
  cbv zeta. rewrite r_mean_mean, r_sum_sum. unfold deviation. rewrite codev_self. reflexivity.
Qed.
Lemma all_false : forall m, Forall (fun b => b = false) m -> m = repeat false (length m).
Proof. induction 1 as [|b m -> _ IH]; [reflexivity|]. cbn. f_equal. exact IH. Qed.
Lemma filter_false : forall (l : list rv) n, length l = n -> map fst (filter (fun p : rv * bool => negb (snd p)) (combine l (repeat false n))) = l.
Proof. induction l as [|x l IH]; intros [|n] E; cbn in *; try lia; [reflexivity|]. rewrite IH by lia. reflexivity. Qed.
Lemma log_elements : forall vs, Forall (fun v => 0 < v) vs -> map log_element (combine (map Some vs) (repeat false (length vs))) = map Some (map ln vs).
Proof. induction 1 as [|v vs P _ IH]; [reflexivity|]. cbn. rewrite IH. destruct (Rle_dec v 0); [lra|reflexivity]. Qed.
Lemma log_values : forall d xs, compares true d xs -> one_dimensional d -> one_dimensional (log_set d) /\ has_values (log_set d) xs /\ missing_at (log_set d) = missing_at d.
Proof.
  intros d xs (vs & [OK V] & NM & P & ->) [R C]. unfold missing_at in NM. pose proof (gma_length (ts_values d) OK) as G. unfold f_len in G.
  assert (M : getmaskarray (ts_values d) = repeat false (length (an_data (ts_values d)))) by (rewrite <- G; apply all_false; exact NM).
  rewrite M, (filter_false _ _ eq_refl) in V.
  assert (E : map log_element (combine (an_data (ts_values d)) (getmaskarray (ts_values d))) = map Some (map ln vs)) by (rewrite M, V, map_length; apply log_elements; exact P).
  assert (LE : length (map ln vs) = length (an_data (ts_values d))) by (rewrite V, !map_length; reflexivity).
  split; [split; [exact R|]|split; [split; [exact I|]|]]; unfold log_set, missing_at; cbn [ts_values ts_cols an_data getmaskarray].
  - rewrite E, map_length, LE. exact C.
  - rewrite E, map_length. rewrite (filter_false (map Some (map ln vs)) _ (map_length _ _)). reflexivity.
  - rewrite E, map_length, LE, M. reflexivity.
Qed.
Definition same_missing (data : list tset) : Prop := forall d e, In d data -> In e data -> missing_at d = missing_at e.
Lemma prepared : forall o data xss, comparable data -> Forall2 (compares (o_logv o)) data xss -> comparable (data_of o data) /\ Forall2 has_values (data_of o data) xss.
Proof.
  intros o data xss [OD SM] F. unfold data_of. destruct (o_logv o); [|split; [split; assumption|exact F]].
  assert (K : forall d, In d data -> one_dimensional (log_set d) /\ missing_at (log_set d) = missing_at d).
  { intros d I. clear SM. induction F as [|e xs data xss C F IH]; [destruct I|]. apply Forall_cons_iff in OD. destruct OD as [O1 O2]. destruct I as [<-|I]; [|exact (IH O2 I)].
    destruct (log_values e xs C O1) as (A & _ & B). split; assumption. }
  split; [split|].
  - apply Forall_forall. intros d I. apply in_map_iff in I. destruct I as (e & <- & I). exact (proj1 (K e I)).
  - intros d e I J. apply in_map_iff in I. destruct I as (d' & <- & I). apply in_map_iff in J. destruct J as (e' & <- & J). rewrite (proj2 (K d' I)), (proj2 (K e' J)). apply SM; assumption.
  - clear SM K. induction F as [|e xs data xss C F IH]; [constructor|]. apply Forall_cons_iff in OD. destruct OD as [O1 O2]. constructor; [exact (proj1 (proj2 (log_values e xs C O1)))|exact (IH O2)].
Qed.
Definition right_corr (xs ys : list R) : rv := if Req_EM_T (codeviation xs xs) 0 then None else Some (correlation xs ys).
Lemma corrs_ok : forall ref ys data xss, one_dimensional ref -> has_values ref ys -> (2 <= length ys)%nat -> codeviation ys ys <> 0 ->
  Forall one_dimensional data -> Forall (fun d => missing_at d = missing_at ref) data -> Forall2 has_values data xss ->
  Forall (fun xs => length xs = length ys) xss /\ map_r (fun d => corrcoef01 d ref) data = Ok (map (fun xs => right_corr xs ys) xss).
Proof.
  intros ref ys data xss OR VR L2 NY OD SM F. induction F as [|d xs data xss V F IH]; [split; [constructor|reflexivity]|].
  apply Forall_cons_iff in OD. apply Forall_cons_iff in SM. destruct OD as [O1 O2], SM as [M1 M2]. destruct (IH O2 M2) as [I1 I2].
  destruct (corrcoef_ok d ref xs ys O1 OR M1 V VR L2 NY) as [E1 E2]. split; [constructor; assumption|]. cbn [map_r]. rewrite E2. cbn [bind]. rewrite I2. reflexivity.
Qed.
Lemma clamp_range : forall v, -1 <= v <= 1 -> clamp (-1) 1 (Some v) = Some v.
Proof. intros v [A B]. unfold clamp. cbn. rewrite Rmax_left by lra. rewrite Rmin_left by lra. reflexivity. Qed.

Lemma f2_len : forall {A B} {R : A -> B -> Prop} {l m}, Forall2 R l m -> length l = length m.
Proof. induction 1; cbn; lia. Qed.
Lemma f2_at : forall {A B} {R : A -> B -> Prop} {l m}, Forall2 R l m -> forall i y, nth_error m i = Some y -> exists x, nth_error l i = Some x /\ R x y.
Proof. induction 1 as [|x y l m H F IH]; intros [|i] z E; try discriminate; cbn in *; [injection E as <-; eauto|exact (IH i z E)]. Qed.
Lemma Forall_nth : forall {A} {P : A -> Prop} {l}, Forall P l -> forall i x, nth_error l i = Some x -> P x.
Proof. intros A P l F i x E. rewrite Forall_forall in F. apply F. exact (nth_error_In l i E). Qed.

Section Statistics.
Variables (ref : tset) (rest : list tset) (ys : list R) (xss : list (list R)) (o : topts).
Hypothesis CMP : comparable (ref :: rest).
Hypothesis VAL : Forall2 (compares (o_logv o)) (ref :: rest) (ys :: xss).
Hypothesis L2 : (2 <= length ys)%nat.
Hypothesis NY : codeviation ys ys <> 0.
Lemma corrs_are : exists ref' rest', data_of o (ref :: rest) = ref' :: rest' /\ Forall2 has_values (ref' :: rest') (ys :: xss) /\ Forall (fun xs => length xs = length ys) (ys :: xss) /\
  map_r (fun d => corrcoef01 d ref') (ref' :: rest') = Ok (map (fun xs => right_corr xs ys) (ys :: xss)).
Proof.
  destruct (prepared o (ref :: rest) (ys :: xss) CMP VAL) as [[OD SM] F]. destruct (data_of o (ref :: rest)) as [|ref' rest'] eqn:ED; [inversion F|].
  exists ref', rest'. split; [reflexivity|]. split; [exact F|]. apply (corrs_ok ref' ys); try assumption.
  - apply Forall_cons_iff in OD. apply OD.
  - inversion F; assumption.
  - apply Forall_forall. intros d I. apply SM; [exact I|left; reflexivity].
Qed.
Lemma shown_ok : forall p, o_fold o = false -> taylor (ref :: rest) o = Ok p ->
  length (p_gammas p) = S (length rest) /\ length (p_corrs p) = S (length rest) /\ length (p_stdbiases p) = S (length rest) /\
  forall i xs, nth_error (ys :: xss) i = Some xs -> exists g c b,
    nth_error (p_gammas p) i = Some g /\ nth_error (p_corrs p) i = Some c /\ nth_error (p_stdbiases p) i = Some b /\ length xs = length ys /\ shows xs ys g c b /\
    (codeviation xs xs <> 0 -> exists gamma corr, g = Some gamma /\ c = Some corr /\ -1 <= corr <= 1 /\ distance_from_reference gamma corr = centred_rms xs ys / deviation ys).
Proof.
  intros p NF T. destruct (taylor_inv _ _ _ T) as (labels & ref1 & rest1 & corrs & _ & _ & ED & EC & _ & PC & PG & PB & _). destruct corrs_are as (ref' & rest' & ED' & F & LL & EC').
  rewrite ED in ED'. injection ED' as -> ->. rewrite EC in EC'. injection EC' as ->. unfold final_corrs in PC. unfold final_gammas in PG. unfold final_biases in PB. rewrite NF, !andb_false_r in PC, PG, PB.
  assert (LR : length (ref' :: rest') = S (length rest)) by (rewrite <- ED, data_of_length; reflexivity).
  pose proof (f2_len F) as FL. cbn [length] in FL, LR. rewrite PC, PG, PB. unfold raw_gammas, raw_biases. rewrite !map_length. cbn [length]. rewrite map_length. split; [lia|]. split; [lia|]. split; [lia|].
  intros i xs E. destruct (f2_at F i xs E) as (d & Ed & Vd). assert (Lx : length xs = length ys) by (apply (Forall_nth LL i); exact E).
  inversion F as [|? ? ? ? VR FR]; subst.
  exists (rv_div (np_std (ts_values d)) (np_std (ts_values ref'))), (clamp (-1) 1 (right_corr xs ys)), (rv_div (rv_sub (np_mean (ts_values d)) (np_mean (ts_values ref'))) (np_std (ts_values ref'))).
  split; [rewrite (map_nth_error (fun d => rv_div (np_std (ts_values d)) (np_std (ts_values ref'))) i _ Ed); reflexivity|].
  split; [apply map_nth_error; exact (map_nth_error (fun xs => right_corr xs ys) i _ E)|].
  split; [rewrite (map_nth_error (fun d => rv_div (rv_sub (np_mean (ts_values d)) (np_mean (ts_values ref'))) (np_std (ts_values ref'))) i _ Ed); reflexivity|].
  split; [exact Lx|].
  assert (YN : ys <> []) by (intros ->; cbn in L2; lia). assert (XN : xs <> []) by (intros ->; cbn in Lx; lia).
  pose proof (dev_pos ys L2 ys eq_refl NY) as PY.
  rewrite (std_ok d xs Vd) by lia. rewrite (std_ok ref' ys VR L2). rewrite (mean_ok d xs Vd XN), (mean_ok ref' ys VR YN).
  assert (CL : codeviation xs xs <> 0 -> clamp (-1) 1 (right_corr xs ys) = Some (correlation xs ys) /\ -1 <= correlation xs ys <= 1).
  { intros NX. pose proof (corr_range xs ys Lx NX NY) as RG. unfold right_corr. destruct (Req_EM_T (codeviation xs xs) 0); [contradiction|]. split; [exact (clamp_range _ RG)|exact RG]. }
  unfold rv_sub, rv_div, rv2. destruct (Req_EM_T (deviation ys) 0); [lra|].
  split.
  - split; [reflexivity|]. split; [reflexivity|]. split; [intros NX; exact (proj1 (CL NX))|]. intros Z. unfold right_corr. destruct (Req_EM_T (codeviation xs xs) 0); [reflexivity|contradiction].
  - intros NX. exists (deviation xs / deviation ys), (correlation xs ys). split; [reflexivity|]. split; [exact (proj1 (CL NX))|]. split; [exact (proj2 (CL NX))|]. exact (law_of_cosines xs ys Lx L2 NX NY).
Qed.
Lemma defined_taylor : forall labels, o_labels o = Some labels -> bias_fine o (ref :: rest) -> exists p, taylor (ref :: rest) o = Ok p.
Proof. intros labels EL BF. destruct corrs_are as (ref' & rest' & ED & _ & _ & EC). exact (taylor_ok _ o labels ref' rest' _ EL BF ED EC). Qed.
End Statistics.
Lemma reference_ok : forall ys, (2 <= length ys)%nat -> codeviation ys ys <> 0 -> deviation ys / deviation ys = 1 /\ correlation ys ys = 1 /\ (mean ys - mean ys) / deviation ys = 0.
Proof.
  intros ys L N. pose proof (dev_pos ys L ys eq_refl N). split; [field; lra|]. split; [|field; lra]. unfold correlation. pose proof (codev_pos ys). rewrite sqrt_square by lra. field. exact N.
Qed.
