(** Nearest-neighbour queries. *)
From Verif Require Import Base QBase KDModel KDSpec KDProofs.
Open Scope Q_scope.

Definition nb_desc (a b : nb) : Prop := fst b <= fst a.
Lemma nb_push_perm x l : Permutation (x :: l) (nb_push x l).
Proof. induction l as [|y l IH]; simpl; auto. destruct (nb_before x y); auto. eapply Permutation_trans; [apply perm_swap|]. constructor. auto. Qed.
Lemma nb_push_sorted x l : StronglySorted nb_desc l -> StronglySorted nb_desc (nb_push x l).
Proof.
  induction 1 as [|y l HS IH HF]; cbn [nb_push]; [repeat constructor|]. destruct (nb_before x y) eqn:E.
  - unfold nb_before in E. assert (fst y <= fst x). { apply orb_true_iff in E. destruct E as [E|E]; [apply Qltb_lt in E; lra|]. apply andb_true_iff in E. destruct E as [E _]. apply Qeqb_eq in E. lra. }
    constructor; [constructor; auto|]. constructor; [exact H|]. eapply Forall_impl; [|exact HF]. unfold nb_desc. intros; lra.
  - constructor; auto. eapply Permutation_Forall; [apply nb_push_perm|]. constructor; auto. unfold nb_before in E. apply orb_false_iff in E. destruct E as [E _]. apply Qltb_ge in E. exact E.
Qed.

Section NN.
Variables (data : list (list Q)) (m : nat) (p : pnorm) (f : Q) (x : list Q) (k : option nat) (ub0 : option Q).
Hypothesis Hk : k <> Some 0%nat.
Hypothesis Hf : 0 <= f <= 1.
Hypothesis Hub0 : match ub0 with Some u => 0 <= u | None => True end.
Definition D (i : nat) : Q := minkowski_p p (row data i) x.
Lemma D_nonneg i : 0 <= D i.
Proof. apply minkowski_nonneg. Qed.
Definition ub_le (a b : option Q) : Prop := match a, b with _, None => True | None, Some _ => False | Some a, Some b => a <= b end.
Definition excl (ub : option Q) (i : nat) : Prop := match ub with None => False | Some u => u * f <= D i end.
Lemma ub_le_refl a : ub_le a a.
Proof. destruct a; simpl; auto; lra. Qed.
Lemma ub_le_trans a b c : ub_le a b -> ub_le b c -> ub_le a c.
Proof. destruct a, b, c; simpl; auto; try tauto. intros; lra. Qed.
Lemma excl_mono a b i : ub_le a b -> excl b i -> excl a i.
Proof. destruct a as [a|], b as [b|]; simpl; try tauto. intros H1 H2. assert (a * f <= b * f) by (apply Qmult_le_compat_r; tauto). lra. Qed.

Record good (l : list nb) (ub : option Q) : Prop := {
  g_sorted : StronglySorted nb_desc l;
  g_dist : Forall (fun h => fst h = D (snd h) /\ lt_ub (fst h) ub0 = true) l;
  g_len : match k with Some k => (length l <= k)%nat | None => True end;
  g_ub : if full k l then match l with h :: _ => ub = Some (fst h) | [] => False end else ub = ub0
}.
Lemma good_ub_le l ub : good l ub -> ub_le ub ub0.
Proof.
  intros [_ HD _ HU]. destruct (full k l); [|subst; apply ub_le_refl]. destruct l as [|h l]; [tauto|]. subst. inversion HD as [|? ? [_ H] _]; subst.
  destruct ub0 as [u|]; simpl in *; auto. apply Qltb_lt in H. lra.
Qed.
Lemma good_ub_nonneg l ub : good l ub -> match ub with Some u => 0 <= u | None => True end.
Proof.
  intros [_ HD _ HU]. destruct (full k l); [|subst; auto]. destruct l as [|h l]; [tauto|]. subst. inversion HD as [|? ? [E _] _]; subst. rewrite E. apply D_nonneg.
Qed.
Lemma full_perm l l' : length l = length l' -> full k l = full k l'.
Proof. intros H. unfold full. rewrite H. reflexivity. Qed.
Lemma nb_step_spec l ub i : good l ub -> forall l' ub', nb_step k (l, ub) (D i, i) = (l', ub') ->
  good l' ub' /\ ub_le ub' ub /\ exists gone, Permutation ((D i, i) :: l) (l' ++ gone) /\ Forall (fun h => excl ub' (snd h)) gone.
Proof.
  intros G l' ub' E. pose proof (good_ub_le _ _ G) as GU. pose proof (good_ub_nonneg _ _ G) as GN. destruct G as [GS GD GL GB].
  cbn [nb_step fst] in E. destruct (lt_ub (D i) ub) eqn:LU.
  - assert (LU0 : lt_ub (D i) ub0 = true).
    { destruct ub as [u|], ub0 as [u0|]; simpl in *; auto; try tauto. apply Qltb_lt in LU. apply Qltb_lt. lra. }
    destruct (full k l) eqn:FL.
    + destruct l as [|h l]; [tauto|]. subst ub. cbn [tl] in E.
      assert (FL' : full k (nb_push (D i, i) l) = true).
      { rewrite <- FL. apply full_perm. rewrite <- (Permutation_length (nb_push_perm (D i, i) l)). reflexivity. }
      rewrite FL' in E.
      inversion GS as [|? ? GS1 GS2]; subst. inversion GD as [|? ? [GD0 GD0'] GD1]; subst.
      pose proof (nb_push_sorted (D i, i) l GS1) as PS. pose proof (nb_push_perm (D i, i) l) as PP.
      assert (HDl : Forall (fun h => fst h = D (snd h) /\ lt_ub (fst h) ub0 = true) (nb_push (D i, i) l)) by (eapply Permutation_Forall; [exact PP|]; constructor; auto).
      assert (HLE : Forall (fun h' => fst h' <= fst h) (nb_push (D i, i) l)).
      { eapply Permutation_Forall; [exact PP|]. cbn [lt_ub] in LU. apply Qltb_lt in LU. constructor; [cbn [fst]; lra|exact GS2]. }
      destruct (nb_push (D i, i) l) as [|y r] eqn:EP; [simpl in PP; apply Permutation_sym, Permutation_nil in PP; discriminate|].
      injection E as <- <-. split; [|split].
      * split; auto; [|rewrite FL'; reflexivity]. destruct k as [k0|]; auto. rewrite <- (Permutation_length PP). simpl in *. lia.
      * simpl. inversion HLE; auto.
      * exists [h]. split; [eapply Permutation_trans; [apply perm_swap|]; eapply Permutation_trans; [constructor; exact PP|]; apply Permutation_cons_append|].
        constructor; [|constructor]. cbn [excl]. inversion HLE as [|? ? A _]; subst. inversion HDl as [|? ? [B _] _]; subst. rewrite <- GD0.
        pose proof (D_nonneg (snd y)) as N. rewrite <- B in N. assert (fst y * f <= fst y * 1) by (rewrite !(Qmult_comm (fst y)); apply Qmult_le_compat_r; tauto). lra.
    + subst ub. pose proof (nb_push_sorted (D i, i) l GS) as PS. pose proof (nb_push_perm (D i, i) l) as PP.
      assert (HDl : Forall (fun h => fst h = D (snd h) /\ lt_ub (fst h) ub0 = true) (nb_push (D i, i) l)) by (eapply Permutation_Forall; [exact PP|]; constructor; auto).
      assert (LEN : match k with Some k => (length (nb_push (D i, i) l) <= k)%nat | None => True end).
      { unfold full in FL. destruct k as [k0|]; auto. apply Nat.eqb_neq in FL. rewrite <- (Permutation_length PP). simpl. lia. }
      destruct (full k (nb_push (D i, i) l)) eqn:FL'.
      * destruct (nb_push (D i, i) l) as [|y r] eqn:EP; [simpl in PP; apply Permutation_sym, Permutation_nil in PP; discriminate|].
        injection E as <- <-. assert (G' : good (y :: r) (Some (fst y))) by (split; auto; rewrite FL'; reflexivity).
        split; auto. split; [apply (good_ub_le _ _ G')|]. exists []. rewrite app_nil_r. split; [exact PP|constructor].
      * injection E as <- <-. split; [split; auto; rewrite FL'; reflexivity|]. split; [apply ub_le_refl|]. exists []. rewrite app_nil_r. split; [exact PP|constructor].
  - injection E as <- <-. split; [split; auto|]. split; [apply ub_le_refl|]. exists [(D i, i)]. split; [apply Permutation_cons_append|].
    constructor; [|constructor]. cbn [snd]. destruct ub as [u|]; simpl in *; [|discriminate]. apply Qltb_ge in LU.
    assert (u * f <= u * 1) by (rewrite !(Qmult_comm u); apply Qmult_le_compat_r; tauto). lra.
Qed.
Lemma nb_fold_spec idx : forall l ub, good l ub -> forall l' ub', fold_left (nb_step k) (map (fun i => (D i, i)) idx) (l, ub) = (l', ub') ->
  good l' ub' /\ ub_le ub' ub /\ exists gone, Permutation (map (fun i => (D i, i)) idx ++ l) (l' ++ gone) /\ Forall (fun h => excl ub' (snd h)) gone.
Proof.
  induction idx as [|i idx IH]; intros l ub G l' ub' E; cbn [map fold_left] in E.
  - injection E as <- <-. split; auto. split; [apply ub_le_refl|]. exists []. rewrite app_nil_r. split; [apply Permutation_refl|constructor].
  - destruct (nb_step k (l, ub) (D i, i)) as [l1 ub1] eqn:E1. destruct (nb_step_spec l ub i G _ _ E1) as (G1 & U1 & gone1 & P1 & X1).
    destruct (IH l1 ub1 G1 _ _ E) as (G2 & U2 & gone2 & P2 & X2). split; auto. split; [eapply ub_le_trans; eauto|].
    exists (gone2 ++ gone1). split.
    + cbn [map app]. eapply Permutation_trans; [apply Permutation_middle|]. eapply Permutation_trans; [apply Permutation_app_head; exact P1|].
      rewrite app_assoc. eapply Permutation_trans; [apply Permutation_app_tail; exact P2|]. rewrite <- app_assoc. apply Permutation_refl.
    + apply Forall_app. split; auto. eapply Forall_impl; [|exact X1]. intros h. apply excl_mono. auto.
Qed.

(** lower bounds carried by queue entries *)
Definition entry_ok (e : entry) : Prop :=
  splits_ok data m (e_node e) /\
  match p with
  | PInf => forall i, In i (leaves (e_node e)) -> e_min e <= D i
  | PN n => e_min e == fold_right Qplus 0 (e_side e) /\ length (e_side e) = m /\
            forall i, In i (leaves (e_node e)) -> forall d, (d < m)%nat -> nth d (e_side e) 0 <= qpow (Qabs (nth d x 0 - at_ data d i)) n
  end.
Hypothesis Hrows : forall i, length (row data i) = m \/ ~ (i < length data)%nat.
Hypothesis Hx : length x = m.
Lemma sum_le_D n side y : length side = m -> length y = m -> (forall d, (d < m)%nat -> nth d side 0 <= qpow (Qabs (nth d x 0 - nth d y 0)) n) ->
  fold_right Qplus 0 side <= minkowski_p (PN n) y x.
Proof.
  clear Hrows. revert m side y Hx. induction x as [|a xs IH]; intros m' side y Hx' HS HY H; simpl in Hx'; subst m'.
  - destruct side; [|discriminate]. destruct y; [|discriminate]. apply Qle_refl.
  - destruct side as [|s side]; [discriminate|]. destruct y as [|b y]; [discriminate|]. unfold minkowski_p, zipw. simpl. simpl in HS, HY.
    specialize (IH (length xs) side y eq_refl ltac:(lia) ltac:(lia)). unfold minkowski_p, zipw in IH. simpl in IH.
    pose proof (H 0%nat ltac:(simpl; lia)) as H0. cbn [nth] in H0. assert (fold_right Qplus 0 side <= fold_right Qplus 0 (map (fun x0 : Q => qpow x0 n) (map (fun p0 : Q * Q => Qabs (snd p0 - fst p0)) (combine y xs)))).
    { apply IH. intros d Hd. apply (H (S d)). simpl. lia. } lra.
Qed.
Lemma entry_ok_bound e : entry_ok e -> Forall (fun i => (i < length data)%nat) (leaves (e_node e)) -> forall i, In i (leaves (e_node e)) -> e_min e <= D i.
Proof.
  intros [HS H] HR i Hi. rewrite Forall_forall in HR. destruct p as [n|] eqn:Ep; [|auto]. destruct H as (E & L & HB). rewrite E. unfold D. rewrite Ep. apply sum_le_D; auto.
  - destruct (Hrows i) as [?|C]; auto. exfalso. apply C. apply HR. auto.
  - intros d Hd. apply HB; auto.
Qed.
Lemma fold_max_bound l d : nth d l 0 <= fold_right Qmax 0 l \/ (length l <= d)%nat.
Proof.
  revert d. induction l as [|a l IH]; intros [|d]; simpl; [right; lia|right; lia| |].
  - left. apply Q.le_max_l.
  - destruct (IH d) as [H|H]; [left|right; lia]. pose proof (Q.le_max_r a (fold_right Qmax 0 l)). lra.
Qed.
Lemma gap_le_Dinf y d : length y = m -> (d < m)%nat -> Qabs (nth d x 0 - nth d y 0) <= minkowski_p PInf y x.
Proof.
  intros HY Hd. unfold minkowski_p. cbn [acc]. set (v := zipw (fun a b => Qabs (b - a)) y x).
  assert (LV : length v = m) by (unfold v, zipw; rewrite map_length, combine_length; lia).
  destruct (fold_max_bound v d) as [H|H]; [|lia]. eapply Qle_trans; [|exact H]. unfold v, zipw.
  rewrite (nth_indep (map (fun p : Q * Q => Qabs (snd p - fst p)) (combine y x)) 0 (Qabs (snd (0, 0) - fst (0, 0)))) by (rewrite map_length, combine_length; lia).
  rewrite (map_nth (fun p : Q * Q => Qabs (snd p - fst p))). rewrite combine_nth by lia. cbn [fst snd]. apply Qle_refl.
Qed.
Lemma nth_set_nth l d v j : nth j (set_nth d v l) 0 = if (j =? d)%nat then (if (d <? length l)%nat then v else 0) else nth j l 0.
Proof.
  revert d j. induction l as [|a l IH]; intros d j.
  - destruct d, j; simpl; auto; destruct (_ =? _)%nat; auto.
  - destruct d as [|d], j as [|j]; cbn [set_nth nth Nat.eqb length]; auto. rewrite IH. destruct (j =? d)%nat; auto.
Qed.
Lemma sum_set l d v : (d < length l)%nat -> fold_right Qplus 0 (set_nth d v l) == fold_right Qplus 0 l - nth d l 0 + v.
Proof. revert d. induction l as [|a l IH]; intros [|d] H; simpl in *; try lia; [ring|]. rewrite IH by lia. ring. Qed.

Definition far_entry (e : entry) (d : nat) (split : Q) (far : node) : entry :=
  let gap := Qabs (split - nth d x 0) in
  match p with
  | PInf => mkE (Qmax (e_min e) gap) (e_side e) far
  | PN n => mkE (e_min e - nth d (e_side e) 0 + qpow gap n) (set_nth d (qpow gap n) (e_side e)) far
  end.
Lemma near_ok e d s l g nd : entry_ok e -> e_node e = Inner d s l g -> (nd = l \/ nd = g) -> entry_ok (mkE (e_min e) (e_side e) nd).
Proof.
  intros [HS H] E HN. rewrite E in *. destruct HS as (Hd & _ & _ & Sl & Sg). split; cbn [e_node e_min e_side].
  - destruct HN; subst; auto.
  - assert (SUB : forall i, In i (leaves nd) -> In i (leaves (Inner d s l g))) by (intros i Hi; cbn [leaves]; apply in_or_app; destruct HN; subst; auto).
    destruct p as [n|]; [|auto]. destruct H as (A & B & C). split; auto.
Qed.
Lemma far_ok e d s l g : entry_ok e -> e_node e = Inner d s l g -> Forall (fun i => (i < length data)%nat) (leaves (e_node e)) ->
  entry_ok (far_entry e d s (if Qltb (nth d x 0) s then g else l)).
Proof.
  intros [HS H] E HR. rewrite E in *. destruct HS as (Hd & HL & HG & Sl & Sg).
  set (far := if Qltb (nth d x 0) s then g else l).
  assert (SUB : forall i, In i (leaves far) -> In i (leaves (Inner d s l g))) by (intros i Hi; unfold far in Hi; cbn [leaves]; apply in_or_app; destruct (Qltb (nth d x 0) s); auto).
  assert (GAP : forall i, In i (leaves far) -> Qabs (s - nth d x 0) <= Qabs (nth d x 0 - at_ data d i)).
  { intros i Hi. unfold far in Hi. destruct (Qltb_spec (nth d x 0) s) as [L|L].
    - specialize (HG i Hi). change (nth d (nth i data []) 0) with (at_ data d i) in HG. qcase.
    - specialize (HL i Hi). change (nth d (nth i data []) 0) with (at_ data d i) in HL. qcase. }
  unfold far_entry, entry_ok. destruct p as [n|] eqn:Ep; cbn [e_node e_min e_side]; (split; [unfold far; destruct (Qltb (nth d x 0) s); auto|]).
  - destruct H as (A & B & C). split; [|split].
    + rewrite sum_set by lia. rewrite A. reflexivity.
    + rewrite set_nth_length. auto.
    + intros i Hi d' Hd'. rewrite nth_set_nth. destruct (Nat.eqb_spec d' d) as [->|N]; [|auto].
      replace (d <? length (e_side e))%nat with true by (symmetry; apply Nat.ltb_lt; lia). apply qpow_mono; [apply Qabs_nonneg|auto].
  - intros i Hi. apply Q.max_lub; [apply H; auto|]. eapply Qle_trans; [apply (GAP i Hi)|]. unfold D. rewrite Ep. rewrite Forall_forall in HR.
    apply (gap_le_Dinf (row data i) d); auto. destruct (Hrows i) as [?|Cn]; auto. exfalso. apply Cn. apply HR. auto.
Qed.

Definition qleaves (q : list entry) : list nat := flat_map (fun e => leaves (e_node e)) q.
Definition qsize (q : list entry) : nat := fold_right Nat.add 0%nat (map (fun e => nodes (e_node e)) q).
Lemma qleaves_perm q q' : Permutation q q' -> Permutation (qleaves q) (qleaves q').
Proof. unfold qleaves. rewrite !flat_map_concat_map. intros H. induction H; simpl; auto. - apply Permutation_app_head; auto. - rewrite !app_assoc. apply Permutation_app_tail. apply Permutation_app_comm. - eapply Permutation_trans; eauto. Qed.
Lemma qsize_perm q q' : Permutation q q' -> qsize q = qsize q'.
Proof. unfold qsize. induction 1; simpl in *; lia. Qed.

Variable all : list nat.
Hypothesis Hall : Forall (fun i => (i < length data)%nat) all.
(** every point is a neighbour, in the queue, or too far *)
Record inv (q : list entry) (l : list nb) (ub : option Q) : Prop := {
  i_good : good l ub;
  i_entries : Forall entry_ok q;
  i_all : exists gone, Permutation all (map snd l ++ qleaves q ++ gone) /\ Forall (excl ub) gone
}.
Lemma inv_range q l ub : inv q l ub -> Forall (fun i => (i < length data)%nat) (qleaves q).
Proof.
  intros [_ _ (gone & P & _)]. apply Forall_forall. intros i Hi. rewrite Forall_forall in Hall. apply Hall. eapply Permutation_in; [apply Permutation_sym; exact P|].
  apply in_or_app. right. apply in_or_app. auto.
Qed.
Definition final (l : list nb) : Prop := exists ub gone, good l ub /\ Permutation all (map snd l ++ gone) /\ Forall (excl ub) gone.

Lemma query_loop_spec pop : heap_pop_contract pop -> forall fuel q l ub, inv q l ub -> (qsize q < fuel)%nat ->
  exists l', query_loop pop fuel data p f x k q l ub = Ok l' /\ final l'.
Proof.
  intros [PN0 PC]. induction fuel as [|fuel IH]; intros q l ub I HF; [lia|]. cbn [query_loop].
  destruct q as [|e0 q0] eqn:Eq.
  { rewrite PN0. exists l. split; auto. destruct I as [G _ (gone & P & X)]. exists ub, gone. auto. }
  rewrite <- Eq in *. assert (NQ : q <> []) by (rewrite Eq; discriminate). clear Eq. destruct (PC q NQ) as (e & q' & EP & PQ & MIN). rewrite EP.
  pose proof (inv_range _ _ _ I) as RNG. destruct I as [G HE (gone & P & X)].
  assert (HE' : Forall entry_ok (e :: q')) by (eapply Permutation_Forall; eauto). inversion HE' as [|? ? He Hq']; subst.
  pose proof (qsize_perm _ _ PQ) as QS. pose proof (qleaves_perm _ _ PQ) as QL.
  assert (RNG' : Forall (fun i => (i < length data)%nat) (qleaves (e :: q'))) by (eapply Permutation_Forall; eauto).
  change (qleaves (e :: q')) with (leaves (e_node e) ++ qleaves q') in RNG', QL. apply Forall_app in RNG'. destruct RNG' as [RE RQ].
  change (qsize (e :: q')) with (nodes (e_node e) + qsize q')%nat in QS.
  destruct (e_node e) as [idx|d s tl tg] eqn:En.
  - destruct (fold_left (nb_step k) (map (fun i => (minkowski_p p (row data i) x, i)) idx) (l, ub)) as [l1 ub1] eqn:EF.
    destruct (nb_fold_spec idx l ub G l1 ub1 EF) as (G1 & U1 & gone1 & P1 & X1).
    apply IH; [|cbn [nodes] in QS; lia]. split; auto. exists (map snd gone1 ++ gone). split.
    + eapply Permutation_trans; [exact P|]. eapply Permutation_trans; [apply Permutation_app_head; apply Permutation_app_tail; exact QL|].
      cbn [leaves]. apply (Permutation_map snd) in P1. rewrite !map_app, map_map in P1. cbn [snd] in P1. rewrite map_id in P1.
      rewrite <- !app_assoc. rewrite (app_assoc (map snd l)). eapply Permutation_trans; [apply Permutation_app_tail; eapply Permutation_trans; [apply Permutation_app_comm|exact P1]|].
      rewrite <- app_assoc. apply Permutation_app_head. rewrite !app_assoc. apply Permutation_app_tail. apply Permutation_app_comm.
    + apply Forall_app. split; [apply Forall_map; auto|]. eapply Forall_impl; [|exact X]. intros i. apply excl_mono. auto.
  - destruct (gt_ub (e_min e) ub f) eqn:GT.
    + exists l. split; auto. exists ub, (qleaves q ++ gone). split; auto. split; auto. apply Forall_app. split; auto.
      eapply Permutation_Forall; [apply Permutation_sym; exact QL|]. destruct ub as [u|]; simpl in GT; [|discriminate]. apply Qltb_lt in GT.
      apply Forall_app. split.
      * apply Forall_forall. intros i Hi. assert (e_min e <= D i); [|cbn [excl]; lra]. apply entry_ok_bound; auto; rewrite En; auto.
      * apply Forall_forall. intros i Hi. unfold qleaves in Hi. apply in_flat_map in Hi. destruct Hi as (e' & He' & Hi).
        rewrite Forall_forall in MIN, Hq', RQ. specialize (MIN _ He'). assert (e_min e' <= D i); [|cbn [excl]; lra].
        apply entry_ok_bound; auto. apply Forall_forall. intros j Hj. apply RQ. apply in_flat_map. eauto.
    + set (near := if Qltb (nth d x 0) s then tl else tg). set (far := if Qltb (nth d x 0) s then tg else tl).
      replace (if Qltb (nth d x 0) s then (tl, tg) else (tg, tl)) with (near, far) by (unfold near, far; destruct (Qltb (nth d x 0) s); reflexivity).
      assert (NOK : entry_ok (mkE (e_min e) (e_side e) near)) by (eapply near_ok; eauto; unfold near; destruct (Qltb (nth d x 0) s); auto).
      assert (FOK : entry_ok (far_entry e d s far)) by (apply (far_ok e d s tl tg); auto; rewrite En; auto).
      assert (FN : e_node (far_entry e d s far) = far) by (unfold far_entry; destruct p; reflexivity).
      assert (LP : Permutation (leaves (Inner d s tl tg)) (leaves near ++ leaves far)).
      { cbn [leaves]. unfold near, far. destruct (Qltb (nth d x 0) s); [apply Permutation_refl|apply Permutation_app_comm]. }
      assert (NP : (nodes near + nodes far = nodes tl + nodes tg)%nat) by (unfold near, far; destruct (Qltb (nth d x 0) s); lia).
      assert (N1 : forall t, (0 < nodes t)%nat) by (destruct t; simpl; lia).
      assert (FR : forall i, In i (leaves far) -> In i (leaves (Inner d s tl tg))) by (intros i Hi; eapply Permutation_in; [apply Permutation_sym; exact LP|]; apply in_or_app; auto).
      change (match p with PN n => mkE (e_min e - nth d (e_side e) 0 + qpow (Qabs (s - nth d x 0)) n) (set_nth d (qpow (Qabs (s - nth d x 0)) n) (e_side e)) far
              | PInf => mkE (Qmax (e_min e) (Qabs (s - nth d x 0))) (e_side e) far end) with (far_entry e d s far).
      destruct (gt_ub (e_min (far_entry e d s far)) ub f) eqn:GF.
      * apply IH; [|cbn [nodes] in QS; unfold qsize in *; cbn [map fold_right e_node]; specialize (N1 far); lia]. split; auto.
        exists (leaves far ++ gone). split.
        -- eapply Permutation_trans; [exact P|]. apply Permutation_app_head. eapply Permutation_trans; [apply Permutation_app_tail; exact QL|].
           change (qleaves ({| e_min := e_min e; e_side := e_side e; e_node := near |} :: q')) with (leaves near ++ qleaves q').
           eapply Permutation_trans; [apply Permutation_app_tail; apply Permutation_app_tail; exact LP|].
           rewrite !app_assoc. apply Permutation_app_tail. rewrite <- !app_assoc. apply Permutation_app_head. apply Permutation_app_comm.
        -- apply Forall_app. split; auto. destruct ub as [u|]; simpl in GF; [|discriminate]. apply Qltb_lt in GF. apply Forall_forall. intros i Hi.
           assert (e_min (far_entry e d s far) <= D i); [|cbn [excl]; lra]. apply entry_ok_bound; auto; rewrite FN; auto. apply Forall_forall. intros j Hj.
           rewrite Forall_forall in RE. apply RE. auto.
      * apply IH; [|cbn [nodes] in QS; unfold qsize in *; cbn [map fold_right e_node]; rewrite FN; lia]. split; auto.
        exists gone. split; auto. eapply Permutation_trans; [exact P|]. apply Permutation_app_head. apply Permutation_app_tail. eapply Permutation_trans; [exact QL|].
        unfold qleaves. cbn [flat_map e_node]. rewrite FN. fold (qleaves q'). rewrite !app_assoc. apply Permutation_app_tail.
        eapply Permutation_trans; [exact LP|]. apply Permutation_app_comm.
Qed.
End NN.

Lemma nb_insert_perm x l : Permutation (x :: l) (nb_insert x l).
Proof. induction l as [|y l IH]; simpl; auto. destruct (nb_le x y); auto. eapply Permutation_trans; [apply perm_swap|]. constructor. auto. Qed.
Lemma nb_sort_perm l : Permutation l (nb_sort l).
Proof. induction l as [|x l IH]; simpl; auto. eapply Permutation_trans; [constructor; exact IH|]. apply nb_insert_perm. Qed.
Definition nb_asc (a b : nb) : Prop := fst a <= fst b.
Lemma nb_insert_sorted x l : StronglySorted nb_asc l -> StronglySorted nb_asc (nb_insert x l).
Proof.
  induction 1 as [|y l HS IH HF]; cbn [nb_insert]; [repeat constructor|]. destruct (nb_le x y) eqn:E; unfold nb_le in E.
  - assert (fst x <= fst y). { apply orb_true_iff in E. destruct E as [E|E]; [apply Qltb_lt in E; lra|]. apply andb_true_iff in E. destruct E as [E _]. apply Qeqb_eq in E. lra. }
    constructor; [constructor; auto|]. constructor; [exact H|]. eapply Forall_impl; [|exact HF]. unfold nb_asc. intros; lra.
  - constructor; auto. eapply Permutation_Forall; [apply nb_insert_perm|]. constructor; auto. apply orb_false_iff in E. destruct E as [E _]. apply Qltb_ge in E. exact E.
Qed.
Lemma nb_sort_sorted l : StronglySorted nb_asc (nb_sort l).
Proof. induction l as [|x l IH]; [constructor|]. apply nb_insert_sorted. exact IH. Qed.

Lemma zipw_length {A B C} (f : A -> B -> C) a b : length a = length b -> length (zipw f a b) = length a.
Proof. intros H. unfold zipw. rewrite map_length, combine_length. lia. Qed.
Lemma zipw_nth {A B C} (f : A -> B -> C) a b d da db dc : (d < length a)%nat -> length a = length b -> nth d (zipw f a b) dc = f (nth d a da) (nth d b db).
Proof.
  revert b d. induction a as [|x a IH]; intros [|y b] [|d] H1 H2; simpl in *; try lia; auto. apply IH; lia.
Qed.

Theorem query_spec pop data m leafsize kd x k eps p dub : heap_pop_contract pop ->
  (0 < m)%nat -> data <> [] -> rows_of_length m data -> (1 <= leafsize)%Z -> KDTree data leafsize = Ok kd -> length x = m -> k <> Some 0%nat -> p <> PN 0 ->
  0 <= eps -> match dub with Some u => 0 <= u | None => True end ->
  exists hits, query pop kd x k eps p dub = Ok hits /\ StronglySorted nb_asc hits /\ NoDup (map snd hits) /\
    Forall (fun h => (snd h < length data)%nat /\ fst h = minkowski_p p (nth (snd h) data []) x /\ lt_ub (fst h) (option_map (pw p) dub) = true) hits /\
    match k with Some k => (length hits <= k)%nat | None => True end /\
    (forall i, (i < length data)%nat -> ~ In i (map snd hits) ->
      match dub with Some u => pw p u <= minkowski_p p (nth i data []) x * pw p (1 + eps) | None => False end \/
      (k = Some (length hits) /\ Forall (fun h => fst h <= minkowski_p p (nth i data []) x * pw p (1 + eps)) hits)).
Proof.
  intros HP Hm HN HR HL HK Hx Hk Hp He Hd.
  destruct (kdtree_spec data m leafsize Hm HN HR HL) as (kd' & EK & KD & KM & Km & KC & [BP BS BL]). rewrite HK in EK. injection EK as <-.
  set (f := if Qeqb eps 0 then 1 else match p with PInf => 1 / (1 + eps) | PN n => 1 / qpow (1 + eps) n end).
  assert (PW1 : 1 <= pw p (1 + eps)).
  { destruct p as [n|]; simpl; [|lra]. assert (E1 : qpow 1 n == 1) by (induction n as [|n IH]; cbn [qpow]; [reflexivity|destruct n; [reflexivity|rewrite IH by discriminate; reflexivity]]).
    pose proof (qpow_mono 1 (1 + eps) n ltac:(lra) ltac:(lra)). lra. }
  assert (FE : f * pw p (1 + eps) == 1).
  { unfold f. destruct (Qeqb_spec eps 0) as [E0|N0].
    - destruct p as [n|]; simpl; [|lra]. assert (E1 : 1 + eps == 1) by lra. rewrite E1. clear. induction n as [|n IH]; cbn [qpow]; [reflexivity|]. rewrite Qmult_1_l in *. rewrite IH. reflexivity.
    - destruct p as [n|]; simpl in *; field; lra. }
  assert (F01 : 0 <= f <= 1).
  { split.
    - destruct (Qlt_le_dec f 0) as [C|C]; auto. exfalso. assert (f * pw p (1 + eps) < 0) by nra. lra.
    - destruct (Qlt_le_dec 1 f) as [C|C]; auto. exfalso. nra. }
  set (side := map (pw p) (zipw (fun x (b : Q * Q) => Qmax 0 (Qmax (x - snd b) (fst b - x))) x (combine (kd_mins kd) (kd_maxes kd)))).
  set (md := match p with PN _ => fold_right Qplus 0 side | PInf => fold_right Qmax 0 side end).
  assert (LS : length side = m) by (unfold side; rewrite map_length, zipw_length; [auto|rewrite combine_length; lia]).
  assert (ND : forall d, (d < m)%nat -> nth d side 0 = pw p (Qmax 0 (Qmax (nth d x 0 - nth d (kd_maxes kd) 0) (nth d (kd_mins kd) 0 - nth d x 0)))).
  { intros d Hd'. unfold side. rewrite (nth_indep _ 0 (pw p 0)) by (rewrite map_length, zipw_length; [lia|rewrite combine_length; lia]). rewrite map_nth.
    rewrite (zipw_nth _ _ _ _ 0 (0, 0)) by (rewrite ?combine_length; lia). rewrite combine_nth by lia. reflexivity. }
  assert (RL : forall i, length (row data i) = m \/ ~ (i < length data)%nat).
  { intros i. destruct (lt_dec i (length data)) as [L|L]; auto. left. unfold rows_of_length in HR. rewrite Forall_forall in HR. apply HR. apply nth_In. auto. }
  assert (IN : forall i, In i (leaves (kd_tree kd)) <-> (i < length data)%nat) by (intros i; rewrite (Permutation_in' eq_refl BP), in_seq; lia).
  assert (SB : forall i, In i (leaves (kd_tree kd)) -> forall d, (d < m)%nat -> nth d side 0 <= pw p (Qabs (nth d x 0 - at_ data d i))).
  { intros i Hi d Hd'. rewrite ND by auto. apply IN in Hi. destruct (KC i Hi) as [C1 C2]. pose proof (forall2_nth_le _ _ C1 d) as B1. pose proof (forall2_nth_le _ _ C2 d) as B2.
    fold (at_ data d i) in *. apply pw_mono; [apply Q.le_max_l|]. clear -B1 B2. unfold at_ in *. qcase. }
  assert (E0 : entry_ok data m p x (mkE md side (kd_tree kd))).
  { split; cbn [e_node e_min e_side]; auto. destruct p as [n|] eqn:Ep.
    - split; [reflexivity|]. split; auto.
    - intros i Hi. unfold md. assert (NN : 0 <= D data PInf x i) by apply D_nonneg.
      assert (SBi : forall d, (d < m)%nat -> nth d side 0 <= D data PInf x i).
      { intros d Hd'. eapply Qle_trans; [apply (SB i Hi d Hd')|]. cbn [pw]. apply (gap_le_Dinf m x Hx (row data i) d); auto. destruct (RL i) as [?|C]; auto. exfalso. apply C. apply IN. auto. }
      clear -NN SBi LS. subst m. generalize dependent (D data PInf x i). intros v NN SBi. clear -NN SBi. induction side as [|a l IH]; simpl; auto. apply Q.max_lub.
      + apply (SBi 0%nat). simpl. lia.
      + apply IH. intros d Hd'. apply (SBi (S d)). simpl. lia. }
  set (ub0 := option_map (pw p) dub).
  assert (UN : match ub0 with Some u => 0 <= u | None => True end) by (unfold ub0; destruct dub; simpl; auto; apply pw_nonneg; auto).
  assert (I0 : inv data m p f x k ub0 (seq 0 (length data)) [mkE md side (kd_tree kd)] [] ub0).
  { split.
    - split; [constructor|constructor|destruct k; simpl; auto; lia|]. unfold full. destruct k as [[|k0]|]; simpl; auto.
    - constructor; auto.
    - exists []. unfold qleaves. cbn [flat_map e_node map app]. rewrite !app_nil_r. split; [apply Permutation_sym; auto|constructor]. }
  assert (RA : Forall (fun i => (i < length data)%nat) (seq 0 (length data))) by (apply Forall_forall; intros i Hi; apply in_seq in Hi; lia).
  destruct (query_loop_spec data m p f x k ub0 Hk F01 UN RL Hx _ RA pop HP (S (nodes (kd_tree kd))) _ _ _ I0) as (l & EQ & (ub & gone & G & PM & X)).
  { unfold qsize. simpl. lia. }
  exists (nb_sort l). unfold query. rewrite KM, Hx, Nat.eqb_refl. cbn [negb].
  assert (P0 : match p with PN 0 => true | _ => false end = false) by (destruct p as [[|n]|]; congruence). rewrite P0.
  assert (K0 : match k with Some 0%nat => true | _ => false end = false) by (destruct k as [[|n]|]; congruence). rewrite K0.
  fold side md f. rewrite KD. fold ub0. rewrite EQ. cbn [bind]. split; [reflexivity|].
  pose proof (nb_sort_perm l) as SP. split; [apply nb_sort_sorted|]. destruct G as [GS GD GL GB].
  assert (NDL : NoDup (map snd l ++ gone)) by (eapply Permutation_NoDup; [exact PM|apply seq_NoDup]).
  split; [|split; [|split]].
  - eapply Permutation_NoDup; [apply Permutation_map; exact SP|]. apply (nodup_app_inv _ _ NDL).
  - eapply Permutation_Forall; [exact SP|]. rewrite Forall_forall in GD |- *. intros h Hh. destruct (GD h Hh) as [A B]. split; auto.
    assert (In (snd h) (seq 0 (length data))) by (eapply Permutation_in; [apply Permutation_sym; exact PM|]; apply in_or_app; left; apply in_map; auto). apply in_seq in H. lia.
  - rewrite <- (Permutation_length SP). auto.
  - intros i Hi NI. assert (Ig : In i gone).
    { assert (In i (map snd l ++ gone)) by (eapply Permutation_in; [exact PM|]; apply in_seq; lia). apply in_app_or in H. destruct H as [H|H]; auto.
      exfalso. apply NI. eapply Permutation_in; [apply Permutation_map; exact SP|auto]. }
    rewrite Forall_forall in X. specialize (X i Ig). unfold excl, D in X. change (row data i) with (nth i data []) in X. set (di := minkowski_p p (nth i data []) x) in *.
    assert (UX : forall u, u * f <= di -> u <= di * pw p (1 + eps)).
    { intros u Hu. assert (u * f * pw p (1 + eps) <= di * pw p (1 + eps)) by (apply Qmult_le_compat_r; [auto|lra]). rewrite <- Qmult_assoc, FE in H. lra. }
    unfold ub0 in *. destruct (full k l) eqn:FL.
    + destruct l as [|h l]; [tauto|]. subst ub. right. unfold full in FL. destruct k as [k0|]; [|discriminate]. apply Nat.eqb_eq in FL. split; [rewrite <- FL, (Permutation_length SP); reflexivity|].
      eapply Permutation_Forall; [exact SP|]. specialize (UX _ X). inversion GS as [|? ? _ GF]; subst. constructor; [exact UX|]. eapply Forall_impl; [|exact GF]. unfold nb_desc. intros h' Hh'. lra.
    + left. subst ub. destruct dub as [u|]; simpl in *; [|tauto]. apply UX. auto.
Qed.
