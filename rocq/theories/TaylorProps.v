(** Property C76: a Taylor diagram shows the statistics of each data set against the first. *)
From Coq Require Import Reals String Lra.
From Verif Require Import Base PyStr UtilModel UtilSpec StatsModel TaylorModel TaylorSpec TaylorProofs Taylor2Proofs Taylor3Proofs Taylor4Proofs.
Open Scope R_scope.

(** For one-dimensional data sets that miss the same points (with the log option: no points, and all values positive) and any options but folding: radius, angle and bias of every
    data set are those of its values against the first's, and the point's distance from the reference point is the centred root mean square difference, in units of the reference's
    standard deviation. *)
Theorem C76_statistics_partial : forall ref rest ys xss o p, comparable (ref :: rest) -> Forall2 (compares (o_logv o)) (ref :: rest) (ys :: xss) -> (2 <= length ys)%nat -> codeviation ys ys <> 0 ->
  o_fold o = false -> taylor (ref :: rest) o = Ok p ->
  length (p_gammas p) = S (length rest) /\ length (p_corrs p) = S (length rest) /\ length (p_stdbiases p) = S (length rest) /\
  forall i xs, nth_error (ys :: xss) i = Some xs -> exists g c b,
    nth_error (p_gammas p) i = Some g /\ nth_error (p_corrs p) i = Some c /\ nth_error (p_stdbiases p) i = Some b /\ length xs = length ys /\ shows xs ys g c b /\
    (codeviation xs xs <> 0 -> exists gamma corr, g = Some gamma /\ c = Some corr /\ -1 <= corr <= 1 /\ distance_from_reference gamma corr = centred_rms xs ys / deviation ys).
Proof. exact (fun ref rest ys xss o p C V L N F T => shown_ok ref rest ys xss o C V L N p F T). Qed.
Print Assumptions C76_statistics_partial.
(** The reference itself is at radius 1, correlation 1, bias 0. *)
Theorem C76_reference : forall ys, (2 <= length ys)%nat -> codeviation ys ys <> 0 -> deviation ys / deviation ys = 1 /\ correlation ys ys = 1 /\ (mean ys - mean ys) / deviation ys = 0.
Proof. exact reference_ok. Qed.
Print Assumptions C76_reference.
(** The diagram is drawn: if the labels are given and the bias option is fine ([bias_fine]: not an unknown style, no colours with the colour style, and more than one data set). *)
Theorem C76_drawn : forall ref rest ys xss o labels, comparable (ref :: rest) -> Forall2 (compares (o_logv o)) (ref :: rest) (ys :: xss) -> (2 <= length ys)%nat -> codeviation ys ys <> 0 ->
  o_labels o = Some labels ->
  (o_bias o = None \/ o_bias o = Some BiasColour /\ o_colors o = false /\ rest <> [] \/ (o_bias o = Some BiasSize \/ o_bias o = Some BiasFlag) /\ rest <> []) ->
  exists p, taylor (ref :: rest) o = Ok p.
Proof.
  intros ref rest ys xss o labels C V L N EL B. apply (defined_taylor ref rest ys xss o C V L N labels EL). unfold bias_fine.
  assert (K : rest <> [] -> (1 < length (ref :: rest))%nat) by (destruct rest; [contradiction|cbn; lia]).
  destruct B as [->|[(-> & CF & R)|([->| ->] & R)]]; auto.
Qed.
Print Assumptions C76_drawn.

(** Marks and folding, for all data: compared with the diagram that has nothing to mark or fold, a label carries exactly the marks of what lies outside the limits, and only folding moves points,
    each to the nearest place inside (or, with a zero limit on the correlation, to the mirror image). *)
Theorem C76_marks : forall data o p, taylor data o = Ok p -> exists p0, taylor data (as_is o) = Ok p0 /\
  (o_fold o = false -> p_corrs p = p_corrs p0 /\ p_gammas p = p_gammas p0 /\ p_stdbiases p = p_stdbiases p0) /\
  (o_fold o = true -> Forall2 (folded_corr (o_extend o)) (p_corrs p0) (p_corrs p) /\ Forall2 (folded_gamma (p_gammamax p)) (p_gammas p0) (p_gammas p) /\ Forall2 (folded_bias o) (p_stdbiases p0) (p_stdbiases p)) /\
  forall i labels l d c g b, o_labels o = Some labels -> nth_error labels i = Some l -> nth_error data i = Some d ->
    nth_error (p_corrs p0) i = Some c -> nth_error (p_gammas p0) i = Some g -> nth_error (p_stdbiases p0) i = Some b ->
    exists base lab, base_label l d base /\ nth_error (p_labels p) i = Some lab /\
      marked base [(-1 < o_extend o /\ below c (o_extend o), " $-$"%string); ((exists m, p_gammamax p = Some m /\ m <> 0 /\ above g m), " $>$"%string);
                   ((exists m, bias_limit o m /\ below b (- m)), " B-"%string); ((exists m, bias_limit o m /\ above b m), " B+"%string)] lab.
Proof. exact marks_ok. Qed.
Print Assumptions C76_marks.
(** With folding every point is inside the diagram; without any limit the radial axis reaches exactly to the outermost point. *)
Theorem C76_inside_folded : forall data o p, o_fold o = true -> taylor data o = Ok p ->
  (forall c, In (Some c) (p_corrs p) -> -1 <= c /\ o_extend o <= c) /\ (forall c, In (Some c) (p_corrs p) -> c <= 1 \/ c = o_extend o) /\
  (forall g m, In (Some g) (p_gammas p) -> p_gammamax p = Some m -> m <> 0 -> g <= m).
Proof. exact inside_folded. Qed.
Print Assumptions C76_inside_folded.
Theorem C76_inside : forall data o p, o_fold o = false -> o_gammamax o = None -> o_bias o = None -> taylor data o = Ok p ->
  (forall g, In (Some g) (p_gammas p) -> exists m, p_gammamax p = Some m /\ g <= m) /\ (forall m, p_gammamax p = Some m -> In (Some m) (p_gammas p)).
Proof. exact inside_default. Qed.
Print Assumptions C76_inside.

(** With the bias option the scale goes from the smallest to the largest bias: its top is the largest (or the limit the user gave), its bottom the smallest of the biases of the data sets but the
    reference, or an eighth of the top if that is less. *)
Theorem C76_bias_scale : forall data o p, taylor data o = Ok p -> o_bias o <> None -> o_fold o = false -> o_gammamax o = None -> o_stdbiasmax o = None ->
  Forall (fun g => g <> None) (p_gammas p) -> Forall (fun b => b <> None) (p_stdbiases p) ->
  exists top bottom, p_maxstdbias p = Some top /\ p_minstdbias p = Some bottom /\
    (forall b, In (Some b) (p_stdbiases p) -> Rabs b <= top) /\ (exists b, In (Some b) (p_stdbiases p) /\ Rabs b = top) /\
    bottom <= top / 8 /\ (forall b, In (Some b) (tl (p_stdbiases p)) -> bottom <= Rabs b) /\ (bottom = top / 8 \/ exists b, In (Some b) (tl (p_stdbiases p)) /\ Rabs b = bottom).
Proof. exact scale_ok. Qed.
Print Assumptions C76_bias_scale.
Theorem C76_bias_limit : forall data o p m, taylor data o = Ok p -> bias_limit o m -> p_maxstdbias p = Some m /\ forall bottom, p_minstdbias p = Some bottom -> bottom <= m / 8.
Proof. exact scale_given. Qed.
Print Assumptions C76_bias_limit.

(** The statement fails for data with two dimensions: the "correlation" of a data set is that of its own first two rows, whatever the reference. *)
Theorem C76_two_dimensional_refuted : forall ref rest o p ws, taylor (ref :: rest) o = Ok p -> o_fold o = false -> o_logv o = false -> full_grid ref ws ->
  forall i d vs, nth_error (ref :: rest) i = Some d -> full_grid d vs -> (2 <= ts_rows d)%nat -> (2 <= ts_cols d)%nat ->
  let row0 := firstn (ts_cols d) vs in let row1 := firstn (ts_cols d) (skipn (ts_cols d) vs) in
  codeviation row0 row0 <> 0 -> codeviation row1 row1 <> 0 -> nth_error (p_corrs p) i = Some (Some (correlation row0 row1)).
Proof. exact two_dimensional_ok. Qed.
Print Assumptions C76_two_dimensional_refuted.
Definition options (logs : bool) : topts := mkOpts (Some [None; None]) false 0 false logs None None None.
Definition square : tset := mkSet (lit "s") 2 2 (Plain [Some 1; Some 2; Some 4; Some 3]).
(** so a data set compared with itself can get the correlation -1 *)
Theorem C76_refuted : exists p, taylor [square; square] (options false) = Ok p /\ nth_error (p_corrs p) 1 = Some (Some (-1)) /\ correlation [1; 2; 4; 3] [1; 2; 4; 3] = 1.
Proof.
  assert (G : full_grid square [1; 2; 4; 3]) by (repeat split; repeat constructor).
  assert (N0 : codeviation [1; 2] [1; 2] = 1 / 2) by (unfold codeviation, mean, sum; cbn; field).
  assert (N1 : codeviation [4; 3] [4; 3] = 1 / 2) by (unfold codeviation, mean, sum; cbn; field).
  assert (N01 : codeviation [1; 2] [4; 3] = - (1 / 2)) by (unfold codeviation, mean, sum; cbn; field).
  assert (R : right_corr [1; 2] [4; 3] = Some (-1)).
  { unfold right_corr, correlation. rewrite N0, N1, N01. destruct (Req_EM_T (1 / 2) 0); [lra|]. rewrite sqrt_square by lra. f_equal. field. }
  assert (E : corrcoef01 square square = Ok (Some (-1))) by (rewrite <- R; apply (two_rows square square [1; 2; 4; 3] [1; 2; 4; 3] G G); [cbn; lia|reflexivity|cbn; lia|change (codeviation [4; 3] [4; 3] <> 0); rewrite N1; lra]).
  destruct (taylor_ok [square; square] (options false) [None; None] square [square] [Some (-1); Some (-1)] eq_refl I eq_refl) as [p T]; [cbn [map_r]; rewrite E; reflexivity|].
  exists p. split; [exact T|]. split.
  - assert (D : correlation [1; 2] [4; 3] = -1) by (unfold correlation; rewrite N0, N1, N01, sqrt_square by lra; field).
    rewrite <- D. apply (C76_two_dimensional_refuted square [square] (options false) p [1; 2; 4; 3] T eq_refl eq_refl G 1 square [1; 2; 4; 3] eq_refl G); [cbn; lia|cbn; lia|change (codeviation [1; 2] [1; 2] <> 0); rewrite N0; lra|change (codeviation [4; 3] [4; 3] <> 0); rewrite N1; lra].
  - apply reference_ok; [cbn; lia|]. unfold codeviation, mean, sum. cbn. lra.
Qed.
Print Assumptions C76_refuted.

(** Nor does it hold with the log option if a value is missing: what is stored there moves the point. *)
Definition log_ref : tset := mkSet (lit "r") 1 3 (Plain [Some (exp 1); Some 1; Some 1]).
Definition log_data (hidden : R) : tset := mkSet (lit "d") 1 3 (Masked [Some 1; Some 1; Some hidden] (Some [false; false; true])).
Theorem C76_log_missing_refuted : exists p q b b', taylor [log_ref; log_data 5] (options true) = Ok p /\ taylor [log_ref; log_data 7] (options true) = Ok q /\
  nth_error (p_stdbiases p) 1 = Some (Some b) /\ nth_error (p_stdbiases q) 1 = Some (Some b') /\ b <> b'.
Proof.
  assert (LR : ts_values (log_set log_ref) = Plain [Some 1; Some 0; Some 0]).
  { cbn. destruct (Rle_dec (exp 1) 0) as [C|_]; [pose proof (exp_pos 1); lra|]. destruct (Rle_dec 1 0); [lra|]. rewrite ln_exp, ln_1. reflexivity. }
  assert (LD : forall h, ts_values (log_set (log_data h)) = Plain [Some 0; Some 0; Some h]) by (intros h; cbn; destruct (Rle_dec 1 0); [lra|]; rewrite ln_1; reflexivity).
  assert (HR : has_values (log_set log_ref) [1; 0; 0]) by (split; rewrite LR; [exact I|reflexivity]).
  assert (HD : forall h, has_values (log_set (log_data h)) [0; 0; h]) by (intros h; split; rewrite LD; [exact I|reflexivity]).
  assert (OR : one_dimensional (log_set log_ref)) by (split; [reflexivity|rewrite LR; reflexivity]).
  assert (OD : forall h, one_dimensional (log_set (log_data h))) by (intros h; split; [reflexivity|rewrite LD; reflexivity]).
  assert (NR : codeviation [1; 0; 0] [1; 0; 0] <> 0) by (unfold codeviation, mean, sum; cbn; lra).
  assert (L3 : (2 <= length [1; 0; 0])%nat) by (cbn; lia).
  assert (EX : forall h, exists p b, taylor [log_ref; log_data h] (options true) = Ok p /\ nth_error (p_stdbiases p) 1 = Some (Some b) /\ b = (h / 3 - 1 / 3) / deviation [1; 0; 0]).
  { intros h. destruct (corrcoef_ok (log_set log_ref) (log_set log_ref) [1; 0; 0] [1; 0; 0] OR OR eq_refl HR HR L3 NR) as [_ E1].
    destruct (corrcoef_ok (log_set (log_data h)) (log_set log_ref) [0; 0; h] [1; 0; 0] (OD h) OR) as [_ E2]; try assumption; [unfold missing_at; rewrite LR, LD; reflexivity|exact (HD h)|].
    edestruct (taylor_ok [log_ref; log_data h] (options true) [None; None] (log_set log_ref) [log_set (log_data h)]) as [p T]; [reflexivity|exact I|reflexivity|cbn [map_r]; rewrite E1, E2; reflexivity|].
    destruct (taylor_inv _ _ _ T) as (labels & ref & rest & corrs & _ & _ & ED & _ & _ & _ & _ & PB & _). injection ED as <- <-. exists p, ((h / 3 - 1 / 3) / deviation [1; 0; 0]). split; [exact T|]. split; [|reflexivity].
    rewrite PB. unfold final_biases, over, has_bias. cbn [options o_bias andb]. unfold raw_biases. cbn [map nth_error].
    rewrite (mean_ok _ _ HR), (mean_ok _ _ (HD h)), (std_ok _ _ HR L3) by discriminate. unfold rv_sub, rv_div, rv2. pose proof (dev_pos [1; 0; 0] L3 [1; 0; 0] eq_refl NR). destruct (Req_EM_T (deviation [1; 0; 0]) 0); [lra|].
    do 2 f_equal. f_equal. unfold mean, sum. cbn. lra. }
  destruct (EX 5) as (p & b & T & E & ->). destruct (EX 7) as (q & b' & T' & E' & ->). exists p, q. do 2 eexists. split; [exact T|]. split; [exact T'|]. split; [exact E|]. split; [exact E'|].
  pose proof (dev_pos [1; 0; 0] L3 [1; 0; 0] eq_refl NR) as P. intros EQ. apply (f_equal (fun x => x * deviation [1; 0; 0])) in EQ. unfold Rdiv in EQ. rewrite !Rmult_assoc, Rinv_l in EQ by lra. lra.
Qed.
Print Assumptions C76_log_missing_refuted.

(** Nor if a value is not positive: it has no logarithm, but is not missing: it counts as itself. *)
Definition log_negative (v : R) : tset := mkSet (lit "d") 1 3 (Plain [Some 1; Some 1; Some v]).
Theorem C76_log_negative_refuted : exists p q b b', taylor [log_ref; log_negative (-5)] (options true) = Ok p /\ taylor [log_ref; log_negative (-7)] (options true) = Ok q /\
  nth_error (p_stdbiases p) 1 = Some (Some b) /\ nth_error (p_stdbiases q) 1 = Some (Some b') /\ b <> b'.
Proof.
  assert (LR : ts_values (log_set log_ref) = Plain [Some 1; Some 0; Some 0]).
  { cbn. destruct (Rle_dec (exp 1) 0) as [C|_]; [pose proof (exp_pos 1); lra|]. destruct (Rle_dec 1 0); [lra|]. rewrite ln_exp, ln_1. reflexivity. }
  assert (LD : forall h, h <= 0 -> ts_values (log_set (log_negative h)) = Plain [Some 0; Some 0; Some h]) by (intros h N; cbn; destruct (Rle_dec 1 0); [lra|]; destruct (Rle_dec h 0); [|lra]; rewrite ln_1; reflexivity).
  assert (HR : has_values (log_set log_ref) [1; 0; 0]) by (split; rewrite LR; [exact I|reflexivity]).
  assert (HD : forall h, h <= 0 -> has_values (log_set (log_negative h)) [0; 0; h]) by (intros h N; split; rewrite (LD h N); [exact I|reflexivity]).
  assert (OR : one_dimensional (log_set log_ref)) by (split; [reflexivity|rewrite LR; reflexivity]).
  assert (OD : forall h, h <= 0 -> one_dimensional (log_set (log_negative h))) by (intros h N; split; [reflexivity|rewrite (LD h N); reflexivity]).
  assert (NR : codeviation [1; 0; 0] [1; 0; 0] <> 0) by (unfold codeviation, mean, sum; cbn; lra).
  assert (L3 : (2 <= length [1; 0; 0])%nat) by (cbn; lia).
  assert (EX : forall h, h <= 0 -> exists p b, taylor [log_ref; log_negative h] (options true) = Ok p /\ nth_error (p_stdbiases p) 1 = Some (Some b) /\ b = (h / 3 - 1 / 3) / deviation [1; 0; 0]).
  { intros h N. destruct (corrcoef_ok (log_set log_ref) (log_set log_ref) [1; 0; 0] [1; 0; 0] OR OR eq_refl HR HR L3 NR) as [_ E1].
    destruct (corrcoef_ok (log_set (log_negative h)) (log_set log_ref) [0; 0; h] [1; 0; 0] (OD h N) OR) as [_ E2]; try assumption; [unfold missing_at; rewrite LR, (LD h N); reflexivity|exact (HD h N)|].
    edestruct (taylor_ok [log_ref; log_negative h] (options true) [None; None] (log_set log_ref) [log_set (log_negative h)]) as [p T]; [reflexivity|exact I|reflexivity|cbn [map_r]; rewrite E1, E2; reflexivity|].
    destruct (taylor_inv _ _ _ T) as (labels & ref & rest & corrs & _ & _ & ED & _ & _ & _ & _ & PB & _). injection ED as <- <-. exists p, ((h / 3 - 1 / 3) / deviation [1; 0; 0]). split; [exact T|]. split; [|reflexivity].
    rewrite PB. unfold final_biases, over, has_bias. cbn [options o_bias andb]. unfold raw_biases. cbn [map nth_error].
    rewrite (mean_ok _ _ HR), (mean_ok _ _ (HD h N)), (std_ok _ _ HR L3) by discriminate. unfold rv_sub, rv_div, rv2. pose proof (dev_pos [1; 0; 0] L3 [1; 0; 0] eq_refl NR). destruct (Req_EM_T (deviation [1; 0; 0]) 0); [lra|].
    do 2 f_equal. f_equal. unfold mean, sum. cbn. lra. }
  destruct (EX (-5) ltac:(lra)) as (p & b & T & E & ->). destruct (EX (-7) ltac:(lra)) as (q & b' & T' & E' & ->). exists p, q. do 2 eexists. split; [exact T|]. split; [exact T'|]. split; [exact E|]. split; [exact E'|].
  pose proof (dev_pos [1; 0; 0] L3 [1; 0; 0] eq_refl NR) as P. intros EQ. apply (f_equal (fun x => x * deviation [1; 0; 0])) in EQ. unfold Rdiv in EQ. rewrite !Rmult_assoc, Rinv_l in EQ by lra. lra.
Qed.
Print Assumptions C76_log_negative_refuted.

(** Nor if the data sets miss different points: a data set equal to the reference wherever it has a value is not at the reference point. *)
Definition whole : tset := mkSet (lit "r") 1 3 (Plain [Some 1; Some 2; Some 3]).
Definition partly : tset := mkSet (lit "d") 1 3 (Masked [Some 1; Some 2; Some 0] (Some [false; false; true])).
Theorem C76_different_missing_refuted : exists p g, taylor [whole; partly] (options false) = Ok p /\ nth_error (p_gammas p) 1 = Some (Some g) /\ nth_error (p_corrs p) 1 = Some (Some 1) /\ g < 1.
Proof.
  assert (HW : has_values whole [1; 2; 3]) by (split; [exact I|reflexivity]). assert (HP : has_values partly [1; 2]) by (split; reflexivity).
  assert (NW : codeviation [1; 2; 3] [1; 2; 3] = 2) by (unfold codeviation, mean, sum; cbn; field).
  assert (N2 : codeviation [1; 2] [1; 2] = 1 / 2) by (unfold codeviation, mean, sum; cbn; field).
  destruct (corrcoef_ok whole whole [1; 2; 3] [1; 2; 3]) as [_ E1]; try assumption; [split; reflexivity|split; reflexivity|reflexivity|cbn; lia|rewrite NW; lra|].
  assert (E2 : corrcoef01 partly whole = Ok (Some 1)).
  { change (corrcoef01 partly whole) with (Ok (row_correlation [(Some 1, false); (Some 2, false); (Some 0, true)] [(Some 1, false); (Some 2, false); (Some 3, true)])). f_equal. destruct (row_correlation_ok [(Some 1, false); (Some 2, false); (Some 0, true)] [(Some 1, false); (Some 2, false); (Some 3, true)] [1; 2] [1; 2]) as [_ E]; [reflexivity|reflexivity|reflexivity|cbn; lia|rewrite N2; lra|].
    rewrite E, N2. destruct (Req_EM_T (1 / 2) 0); [lra|]. unfold correlation. rewrite N2, sqrt_square by lra. f_equal. field. }
  edestruct (taylor_ok [whole; partly] (options false) [None; None] whole [partly]) as [p T]; [reflexivity|exact I|reflexivity|cbn [map_r]; rewrite E1, E2; reflexivity|].
  destruct (taylor_inv _ _ _ T) as (labels & ref & rest & corrs & _ & _ & ED & EC & _ & PC & PG & _). injection ED as <- <-. cbn [map_r] in EC. rewrite E1, E2 in EC. injection EC as <-.
  exists p, (deviation [1; 2] / deviation [1; 2; 3]).
  assert (DW : deviation [1; 2; 3] = 1). { unfold deviation. rewrite NW. replace (2 / (INR (length [1; 2; 3]) - 1)) with 1 by (cbn; field). apply sqrt_1. }
  split; [exact T|]. split; [|split].
  - rewrite PG. unfold final_gammas. cbn [options o_fold]. rewrite andb_false_r. unfold raw_gammas. cbn [map nth_error]. rewrite (std_ok whole _ HW) by (apply Nat.leb_le; reflexivity). rewrite (std_ok partly _ HP) by (apply Nat.leb_le; reflexivity). rewrite DW. unfold rv_div, rv2. destruct (Req_EM_T 1 0) as [Z|_]; [destruct (R1_neq_R0 Z)|reflexivity].
  - rewrite PC. unfold final_corrs. cbn [options o_fold]. rewrite andb_false_r. cbn [map nth_error]. f_equal. apply clamp_range. lra.
  - rewrite DW. unfold deviation. rewrite N2. replace (1 / 2 / (INR (length [1; 2]) - 1)) with (1 / 2) by (cbn; field). unfold Rdiv at 1. rewrite Rinv_1, Rmult_1_r. apply Rlt_le_trans with (sqrt 1); [apply sqrt_lt_1; lra|rewrite sqrt_1; lra].
Qed.
Print Assumptions C76_different_missing_refuted.

(** a diagram of two data sets with a missing point in both, to which the first theorem applies *)
Definition first_set : tset := mkSet (lit "a") 1 4 (Masked [Some 1; Some 2; None; Some 3] (Some [false; false; true; false])).
Definition second_set : tset := mkSet (lit "b") 1 4 (Masked [Some 2; Some 6; Some 9; Some 4] (Some [false; false; true; false])).
Example C76_example : exists p, comparable [first_set; second_set] /\ Forall2 (compares false) [first_set; second_set] [[1; 2; 3]; [2; 6; 4]] /\ codeviation [1; 2; 3] [1; 2; 3] <> 0 /\
  taylor [first_set; second_set] (options false) = Ok p /\ exists g, nth_error (p_gammas p) 1 = Some (Some g) /\ g = deviation [2; 6; 4] / deviation [1; 2; 3] /\ nth_error (p_corrs p) 1 = Some (Some (1 / 2)).
Proof.
  assert (C : comparable [first_set; second_set]). { split; [repeat constructor|]. intros d e [<-|[<-|[]]] [<-|[<-|[]]]; reflexivity. }
  assert (V : Forall2 (compares false) [first_set; second_set] [[1; 2; 3]; [2; 6; 4]]) by (repeat constructor).
  assert (N : codeviation [1; 2; 3] [1; 2; 3] = 2) by (unfold codeviation, mean, sum; cbn; field).
  assert (NX : codeviation [2; 6; 4] [2; 6; 4] = 8) by (unfold codeviation, mean, sum; cbn; field).
  assert (NXY : codeviation [2; 6; 4] [1; 2; 3] = 2) by (unfold codeviation, mean, sum; cbn; field).
  assert (N0 : codeviation [1; 2; 3] [1; 2; 3] <> 0) by (rewrite N; lra).
  destruct (C76_drawn first_set [second_set] [1; 2; 3] [[2; 6; 4]] (options false) [None; None] C V ltac:(cbn; lia) N0 eq_refl (or_introl eq_refl)) as [p T]. exists p. do 4 (split; [assumption|]).
  destruct (C76_statistics_partial first_set [second_set] [1; 2; 3] [[2; 6; 4]] (options false) p C V ltac:(cbn; lia) N0 eq_refl T) as (_ & _ & _ & S).
  destruct (S 1%nat [2; 6; 4] eq_refl) as (g & c & b & Eg & Ec & _ & _ & (-> & _ & K & _) & _). exists (deviation [2; 6; 4] / deviation [1; 2; 3]). split; [exact Eg|]. split; [reflexivity|]. rewrite Ec. f_equal.
  rewrite K by (rewrite NX; lra). f_equal. unfold correlation. rewrite NXY, NX, N. replace (8 * 2) with (4 * 4) by lra. rewrite sqrt_square by lra. field.
Qed.
