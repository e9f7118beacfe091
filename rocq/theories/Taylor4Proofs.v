(** Proofs for C76: the scale of the biases. *)
From Verif Require Import Base PyStr UtilModel StatsModel StatsProofs TaylorModel TaylorSpec TaylorProofs Taylor2Proofs Taylor3Proofs.
From Coq Require Import List Reals Lra Lia.
Import ListNotations.
Open Scope R_scope. Open Scope list_scope. Notation length := List.length.

Lemma extreme_min : forall l, (extreme Rmin l = None /\ forall x, ~ In (Some x) l) \/ exists m, extreme Rmin l = Some m /\ In (Some m) l /\ forall x, In (Some x) l -> m <= x.
Proof.
  unfold extreme. set (f := fun acc x => _).
  assert (K : forall l acc, (fold_left f l acc = None /\ acc = None /\ forall x, ~ In (Some x) l) \/ exists m, fold_left f l acc = Some m /\ (In (Some m) l \/ acc = Some m) /\ (forall x, In (Some x) l \/ acc = Some x -> m <= x)).
  { induction l as [|x l IH]; intros acc; cbn [fold_left].
    - destruct acc as [a|]; [right; exists a; split; [reflexivity|]; split; [auto|]; intros x [[]|[= <-]]; lra|left; auto].
    - destruct (IH (f acc x)) as [(E & A & N)|(m & E & I & M)].
      + left. split; [exact E|]. destruct acc as [a|], x as [x|]; cbn in A; try discriminate. split; [reflexivity|]. intros y [?|?]; [discriminate|firstorder].
      + right. exists m. split; [exact E|]. assert (FX : f acc x = match acc, x with Some a, Some x => Some (Rmin a x) | None, x => x | a, None => a end) by reflexivity. rewrite FX in *. split.
        * destruct I as [I|I]; [left; right; exact I|]. destruct acc as [a|], x as [x|]; try discriminate; injection I as <-; [|auto|left; left; reflexivity].
          unfold Rmin. destruct (Rle_dec a x); [auto|left; left; reflexivity].
        * intros y [[->|I']| ->].
          -- destruct acc as [a|]; [|apply M; auto]. apply Rle_trans with (Rmin a y); [|apply Rmin_r]. apply M. auto.
          -- apply M. auto.
          -- destruct x as [x|]; [|apply M; auto]. apply Rle_trans with (Rmin y x); [|apply Rmin_l]. apply M. auto. }
  intros l. destruct (K l None) as [(E & _ & N)|(m & E & I & M)]; [left; auto|right]. exists m. split; [exact E|]. split; [destruct I as [I|I]; [exact I|discriminate]|intros; apply M; auto].
Qed.
Definition scale_top (o : topts) (gs bs : list rv) : rv := if truthy (o_stdbiasmax o) then o_stdbiasmax o else extreme Rmax (map rv_abs (kept (excluded o gs bs) bs)).
Lemma taylor_scale : forall data o p, taylor data o = Ok p -> o_bias o <> None -> exists ref rest,
  data_of o data = ref :: rest /\ rest <> [] /\ let gs := raw_gammas ref (ref :: rest) in let bs := raw_biases ref (ref :: rest) in
  p_gammas p = final_gammas o (radial o gs bs) gs /\ p_stdbiases p = final_biases o bs /\
  p_maxstdbias p = scale_top o gs bs /\
  p_minstdbias p = match extreme Rmin (map rv_abs (kept (tl (excluded o gs bs)) (tl bs))), scale_top o gs bs with Some a, Some m => Some (Rmin a (m / 8)) | _, _ => None end.
Proof.
  intros data o p H NB. unfold taylor in H. destruct (o_labels o) as [labels|] eqn:EL; [|discriminate]. cbv zeta in H. fold (data_of o data) in H.
  destruct (data_of o data) as [|ref rest] eqn:ED.
  { cbn in H. exfalso. destruct (o_bias o) as [[]|]; try discriminate. destruct (o_colors o); discriminate. }
  assert (EG : map (fun s => rv_div s (np_std (ts_values ref))) (map (fun d => np_std (ts_values d)) (ref :: rest)) = raw_gammas ref (ref :: rest)) by (rewrite map_map; reflexivity).
  assert (EB : map (fun m => rv_div (rv_sub m (np_mean (ts_values ref))) (np_std (ts_values ref))) (map (fun d => np_mean (ts_values d)) (ref :: rest)) = raw_biases ref (ref :: rest)) by (rewrite map_map; reflexivity).
  assert (EM : map (fun d => np_mean (ts_values d)) (ref :: rest) = np_mean (ts_values ref) :: map (fun d => np_mean (ts_values d)) rest) by reflexivity.
  assert (ES : map (fun d => np_std (ts_values d)) (ref :: rest) = np_std (ts_values ref) :: map (fun d => np_std (ts_values d)) rest) by reflexivity.
  rewrite EM in H, EB. rewrite ES in H, EG.
  unfold scale_top, final_gammas, final_biases, over, radial, excluded, has_bias, limit.
  destruct (o_bias o) as [[]|]; try discriminate; try contradiction; try (destruct (o_colors o); [discriminate|]); cbv iota beta in H; rewrite EG, EB in H;
    destruct (map_r (fun d => corrcoef01 d ref) (ref :: rest)) as [corrs|] eqn:EC; try discriminate; cbn [bind] in H;
    destruct (length (ref :: rest) <=? 1)%nat eqn:EN; try discriminate; cbn [andb] in H; injection H as <-; apply Nat.leb_gt in EN;
    exists ref, rest; (split; [reflexivity|]; split; [destruct rest; [cbn in EN; lia|discriminate]|]); cbv zeta; repeat split; reflexivity.
Qed.
Lemma none_excluded : forall o (gs bs : list rv), o_gammamax o = None -> o_stdbiasmax o = None -> length gs = length bs -> Forall (fun g => g <> None) gs -> Forall (fun b => b <> None) bs -> excluded o gs bs = repeat false (length bs).
Proof.
  intros o gs bs G S L FG FB. unfold excluded. rewrite G, S. cbn [truthy andb].
  assert (MF : forall l, Forall (fun g : rv => g <> None) l -> mask_of l = repeat false (length l)) by (intros l; induction 1 as [|[x|] l N F IH]; cbn; [reflexivity|f_equal; exact IH|congruence]).
  rewrite (MF gs FG), (MF bs FB), L. destruct (has_bias o); [|reflexivity]. clear. unfold orl. induction (length bs); cbn; [reflexivity|f_equal; assumption].
Qed.
Lemma kept_all : forall l : list rv, kept (repeat false (length l)) l = l.
Proof. unfold kept. induction l as [|x l IH]; cbn; [reflexivity|f_equal; exact IH]. Qed.
Lemma in_abs : forall x l, In (Some x) (map rv_abs l) <-> exists b, In (Some b) l /\ x = Rabs b.
Proof.
  intros x l. rewrite in_map_iff. split.
  - intros ([b|] & E & I); [|discriminate]. injection E as <-. eauto.
  - intros (b & I & ->). exists (Some b). auto.
Qed.
(** the colours or sizes of the biases go from the smallest to the largest *)
Theorem scale_ok : forall data o p, taylor data o = Ok p -> o_bias o <> None -> o_fold o = false -> o_gammamax o = None -> o_stdbiasmax o = None ->
  Forall (fun g => g <> None) (p_gammas p) -> Forall (fun b => b <> None) (p_stdbiases p) ->
  exists top bottom, p_maxstdbias p = Some top /\ p_minstdbias p = Some bottom /\
    (forall b, In (Some b) (p_stdbiases p) -> Rabs b <= top) /\ (exists b, In (Some b) (p_stdbiases p) /\ Rabs b = top) /\
    bottom <= top / 8 /\ (forall b, In (Some b) (tl (p_stdbiases p)) -> bottom <= Rabs b) /\ (bottom = top / 8 \/ exists b, In (Some b) (tl (p_stdbiases p)) /\ Rabs b = bottom).
Proof.
  intros data o p T NB F G S FG FB. destruct (taylor_scale _ _ _ T NB) as (ref & rest & _ & NR & PG & PB & PX & PN). unfold final_gammas in PG. unfold final_biases in PB. rewrite F, andb_false_r in PG, PB. rewrite PG in FG. rewrite PB in *. clear PG PB.
  assert (LE : length (raw_gammas ref (ref :: rest)) = length (raw_biases ref (ref :: rest))) by (unfold raw_gammas, raw_biases; rewrite !map_length; reflexivity).
  assert (LB : exists b1 b2 r, raw_biases ref (ref :: rest) = b1 :: b2 :: r) by (destruct rest as [|d r]; [contradiction|]; cbn; eauto). destruct LB as (b1 & b2 & r & EB).
  set (bs := raw_biases ref (ref :: rest)) in *. set (gs := raw_gammas ref (ref :: rest)) in *. clearbody bs gs. unfold scale_top in PX, PN. rewrite (none_excluded o gs bs G S LE FG FB), S in PX, PN. cbn [truthy] in PX, PN. rewrite kept_all in PX, PN.
  assert (TL : tl (repeat false (length bs)) = repeat false (length (tl bs))) by (rewrite EB; reflexivity). rewrite TL, kept_all in PN. rewrite EB in FB. inversion FB as [|? ? N1 FB1]; subst. inversion FB1 as [|? ? N2 _]; subst.
  destruct b1 as [v1|]; [|congruence]. destruct b2 as [v2|]; [|congruence]. cbn [tl] in *.
  match type of PX with _ = extreme _ ?l => destruct (extreme_max l) as [(_ & NX)|(top & EX & IX & MX)]; [exfalso; apply (NX (Rabs v1)); left; reflexivity|] end.
  match type of PN with context [extreme Rmin ?l] => destruct (extreme_min l) as [(_ & NX)|(a & EA & IA & MA)]; [exfalso; apply (NX (Rabs v2)); left; reflexivity|] end.
  rewrite EX in PX, PN. rewrite EA in PN. exists top, (Rmin a (top / 8)). split; [exact PX|]. split; [exact PN|].
  split; [intros b I; apply MX, in_abs; eauto|]. split; [apply in_abs in IX; destruct IX as (b & I & ->); eauto|]. split; [apply Rmin_r|]. split.
  - intros b I. apply Rle_trans with a; [apply Rmin_l|]. apply MA, in_abs. eauto.
  - unfold Rmin. destruct (Rle_dec a (top / 8)); [right|left; reflexivity]. apply in_abs in IA. destruct IA as (b & I & ->). eauto.
Qed.
(** a limit given by the user is the top of the scale *)
Theorem scale_given : forall data o p m, taylor data o = Ok p -> bias_limit o m -> p_maxstdbias p = Some m /\ forall bottom, p_minstdbias p = Some bottom -> bottom <= m / 8.
Proof.
  intros data o p m T (NB & E & N). destruct (taylor_scale _ _ _ T NB) as (ref & rest & _ & NR & PG & PB & PX & PN). unfold scale_top in PX, PN. assert (TR : truthy (o_stdbiasmax o) = true) by (rewrite E; apply truthy_iff; eauto). rewrite TR, E in PX, PN. split; [exact PX|].
  intros bottom EB. rewrite EB in PN. destruct (extreme _ _) as [a|]; [|discriminate]. injection PN as ->. apply Rmin_r.
Qed.
