From Verif Require Import Base QBase KDModel KDSpec KDProofs KD2Proofs KD4Proofs HavModel HavSpec HavProofs.
From Coq Require Import Reals Lra Psatz Qreals.
Open Scope R_scope.

(** ** The two-tree traversal, for any tests that are sound on the cells *)
Section Traverse.
Variables (prune bulk : rect -> rect -> bool) (near : nat -> nat -> bool).
Lemma htraverse_eq t1 r1 t2 r2 : htraverse prune bulk near t1 r1 t2 r2 =
  if prune r1 r2 then []
  else if bulk r1 r2 then pairs_nc t1 t2
  else match t1 with
       | Leaf idx1 =>
         match t2 with
         | Leaf idx2 => flat_map (fun i => map (fun j => (i, j)) (filter (near i) idx2)) idx1
         | Inner d s l g => htraverse prune bulk near t1 r1 l (fst (rect_split r2 d s)) ++ htraverse prune bulk near t1 r1 g (snd (rect_split r2 d s))
         end
       | Inner d s l1 g1 =>
         let rl1 := fst (rect_split r1 d s) in let rg1 := snd (rect_split r1 d s) in
         match t2 with
         | Leaf _ => htraverse prune bulk near l1 rl1 t2 r2 ++ htraverse prune bulk near g1 rg1 t2 r2
         | Inner d s l2 g2 =>
           let rl2 := fst (rect_split r2 d s) in let rg2 := snd (rect_split r2 d s) in
           htraverse prune bulk near l1 rl1 l2 rl2 ++ htraverse prune bulk near l1 rl1 g2 rg2 ++ htraverse prune bulk near g1 rg1 l2 rl2 ++ htraverse prune bulk near g1 rg1 g2 rg2
         end
       end.
Proof. destruct t1, t2; reflexivity. Qed.

Variables (lo hi : nat -> nat -> Prop) (ok1 ok2 : node -> rect -> Prop).
Hypothesis H_split1 : forall d s l g r, ok1 (Inner d s l g) r -> ok1 l (fst (rect_split r d s)) /\ ok1 g (snd (rect_split r d s)).
Hypothesis H_split2 : forall d s l g r, ok2 (Inner d s l g) r -> ok2 l (fst (rect_split r d s)) /\ ok2 g (snd (rect_split r d s)).
Hypothesis H_prune : forall t1 r1 t2 r2, ok1 t1 r1 -> ok2 t2 r2 -> prune r1 r2 = true -> forall i j, In i (leaves t1) -> In j (leaves t2) -> ~ lo i j.
Hypothesis H_bulk : forall t1 r1 t2 r2, ok1 t1 r1 -> ok2 t2 r2 -> bulk r1 r2 = true -> forall i j, In i (leaves t1) -> In j (leaves t2) -> hi i j.
Hypothesis H_lo : forall i j, lo i j -> near i j = true.
Hypothesis H_hi : forall i j, near i j = true -> hi i j.
Lemma htraverse_spec : forall t1 r1 t2 r2, ok1 t1 r1 -> ok2 t2 r2 -> NoDup (leaves t1) -> NoDup (leaves t2) ->
  prod_spec lo hi (leaves t1) (leaves t2) (htraverse prune bulk near t1 r1 t2 r2).
Proof.
  assert (TESTS : forall t1 r1 t2 r2 X, ok1 t1 r1 -> ok2 t2 r2 -> NoDup (leaves t1) -> NoDup (leaves t2) -> prod_spec lo hi (leaves t1) (leaves t2) X ->
     prod_spec lo hi (leaves t1) (leaves t2) (if prune r1 r2 then [] else if bulk r1 r2 then pairs_nc t1 t2 else X)).
  { intros t1 r1 t2 r2 X O1 O2 N1 N2 HX. destruct (prune r1 r2) eqn:E1; [apply ps_empty; intros i j Hi Hj; eapply H_prune; eauto|].
    destruct (bulk r1 r2) eqn:E2; auto. eapply ps_weaken; [| |apply pairs_nc_spec; auto]; [intros; exact I|]. intros i j Hi Hj _. eapply H_bulk; eauto. }
  induction t1 as [idx1|e1 s1 l1 IHl g1 IHg].
  - intros r1 t2. induction t2 as [idx2|e2 s2 l2 IH2l g2 IH2g]; intros r2 O1 O2 N1 N2; rewrite htraverse_eq; apply TESTS; auto.
    + eapply ps_weaken; [| |apply (ps_leaf near); auto]; cbn beta; auto.
    + destruct (H_split2 _ _ _ _ _ O2) as [Ol Og]. cbn [leaves] in N2 |- *. destruct (nodup_app_inv _ _ N2) as (M1 & M2 & D).
      apply ps_app_r; [auto|apply IH2l; auto|apply IH2g; auto].
  - intros r1 t2 r2 O1 O2 N1 N2. rewrite htraverse_eq. apply TESTS; auto. cbv zeta. destruct (H_split1 _ _ _ _ _ O1) as [Ol1 Og1].
    cbn [leaves] in N1 |- *. destruct (nodup_app_inv _ _ N1) as (M1 & M2 & D).
    destruct t2 as [idx2|e2 s2 l2 g2].
    + apply ps_app_l; auto.
    + destruct (H_split2 _ _ _ _ _ O2) as [Ol Og]. cbn [leaves] in N2 |- *. destruct (nodup_app_inv _ _ N2) as (M3 & M4 & D').
      rewrite app_assoc. apply ps_app_l; auto; apply ps_app_r; auto.
Qed.
End Traverse.

(** ** Cells of a tree whose points lie in a box *)
Definition sub_rect (B r : rect) : Prop := Forall2 (fun b c : Q * Q => (fst b <= fst c <= snd b /\ fst b <= snd c <= snd b)%Q) B r.
Definition hok (data : list (list Q)) (B : rect) (t : node) (r : rect) : Prop :=
  splits_ok data 2 t /\ no_empty t /\ cell_ok data t r /\ sub_rect B r /\ (forall i, In i (leaves t) -> in_rect B (row data i)).
Lemma forall2_nth_in (B : rect) (y : list Q) d : Forall2 (fun (b : Q * Q) y => (fst b <= y /\ y <= snd b)%Q) B y -> (d < length B)%nat ->
  (fst (nth d B (0, 0)%Q) <= nth d y 0%Q /\ nth d y 0%Q <= snd (nth d B (0, 0)%Q))%Q.
Proof. intros H. revert d. induction H as [|b c B y Hb H IH]; intros d Hd; [simpl in Hd; lia|]. destruct d; simpl; auto. apply IH. simpl in Hd. lia. Qed.
Lemma sub_rect_split B r d s : sub_rect B r -> ((d < length B)%nat -> fst (nth d B (0, 0)) <= s <= snd (nth d B (0, 0)))%Q ->
  sub_rect B (fst (rect_split r d s)) /\ sub_rect B (snd (rect_split r d s)).
Proof.
  intros H. revert d. unfold rect_split, mk_rect, zipw. cbn [fst snd]. induction H as [|b c B r Hb H IH]; intros d Hs.
  - destruct d; simpl; split; constructor.
  - assert (MM : forall x y : Q, (fst b <= x <= snd b -> fst b <= y <= snd b -> fst b <= Qmin x y <= snd b /\ fst b <= Qmax x y <= snd b)%Q).
    { intros x y Hx Hy. destruct (Q.min_spec x y) as [[_ E]|[_ E]], (Q.max_spec x y) as [[_ F]|[_ F]]; rewrite E, F; tauto. }
    assert (SELF : forall r0 : rect, sub_rect B r0 -> Forall2 (fun b c : Q * Q => (fst b <= fst c <= snd b /\ fst b <= snd c <= snd b)%Q) B
       (map (fun ab : Q * Q => (Qmin (fst ab) (snd ab), Qmax (fst ab) (snd ab))) (combine (map fst r0) (map snd r0)))).
    { clear. intros r0 H. induction H as [|b c B r [H1 H2] H IH]; simpl; constructor; auto. cbn [fst snd].
      destruct (Q.min_spec (fst c) (snd c)) as [[_ E]|[_ E]], (Q.max_spec (fst c) (snd c)) as [[_ F]|[_ F]]; rewrite E, F; tauto. }
    destruct d as [|d]; simpl in Hs |- *.
    + assert (fst b <= s <= snd b)%Q by (apply Hs; lia). destruct Hb. split; constructor; try (cbn [fst snd]; apply MM; auto); apply SELF; auto.
    + destruct (IH d) as [I1 I2]; [intros; apply Hs; lia|]. destruct Hb. split; constructor; auto; cbn [fst snd]; apply MM; auto.
Qed.
Lemma hok_split data B d s l g r : length B = 2%nat -> hok data B (Inner d s l g) r -> hok data B l (fst (rect_split r d s)) /\ hok data B g (snd (rect_split r d s)).
Proof.
  intros LB (S & N & C & SR & IB). destruct (cell_ok_split data 2 d s l g r S C) as [Cl Cg].
  destruct S as (Hd & HL & HG & Sl & Sg). destruct N as (Nl & Ng & NEl & NEg).
  assert (Hs : ((d < length B)%nat -> fst (nth d B (0, 0)) <= s <= snd (nth d B (0, 0)))%Q).
  { intros _. destruct (leaves l) as [|i li] eqn:El; [congruence|]. destruct (leaves g) as [|j gj] eqn:Eg; [congruence|].
    assert (I1 : In i (leaves (Inner d s l g))) by (simpl; rewrite El; left; auto). assert (I2 : In j (leaves (Inner d s l g))) by (simpl; rewrite Eg; apply in_or_app; right; left; auto).
    pose proof (forall2_nth_in _ _ d (IB i I1) ltac:(lia)) as B1. pose proof (forall2_nth_in _ _ d (IB j I2) ltac:(lia)) as B2.
    specialize (HL i (or_introl eq_refl)). specialize (HG j (or_introl eq_refl)). unfold row in *. split; lra. }
  destruct (sub_rect_split B r d s SR Hs). split; (split; [assumption|]; split; [assumption|]; split; [assumption|]; split; [assumption|]); intros i Hi; apply IB; simpl; apply in_or_app; auto.
Qed.
Lemma fold_box B : forall rows x, in_rect B x -> Forall (in_rect B) rows -> in_rect B (fold_left (zipw Qmax) rows x) /\ in_rect B (fold_left (zipw Qmin) rows x).
Proof.
  assert (Z : forall f x y, (forall a b : Q, f a b = a \/ f a b = b \/ f a b == a \/ f a b == b)%Q -> in_rect B x -> in_rect B y -> in_rect B (zipw f x y)).
  { intros f x y Hf Hx. revert y. unfold zipw. induction Hx as [|b c B x Hb Hx IH]; intros y Hy; inversion Hy; subst; simpl; constructor; [|apply IH; assumption].
    cbn [fst snd]. destruct (Hf c y0) as [E|[E|[E|E]]]; rewrite E; auto. }
  assert (M1 : forall a b : Q, (Qmax a b = a \/ Qmax a b = b \/ Qmax a b == a \/ Qmax a b == b)%Q) by (intros a b; destruct (Q.max_spec a b) as [[_ E]|[_ E]]; auto).
  assert (M2 : forall a b : Q, (Qmin a b = a \/ Qmin a b = b \/ Qmin a b == a \/ Qmin a b == b)%Q) by (intros a b; destruct (Q.min_spec a b) as [[_ E]|[_ E]]; auto).
  intros rows x Hx HR. split; revert x Hx; induction HR as [|y rows Hy HR IH]; intros x Hx; simpl; auto; apply IH; apply Z; auto.
Qed.
Lemma root_hok data kd B : rows_of_length 2 data -> KDTree data 10 = Ok kd -> length B = 2%nat -> Forall (in_rect B) data ->
  hok data B (kd_tree kd) (mk_rect (kd_maxes kd) (kd_mins kd)) /\ kd_data kd = data /\ NoDup (leaves (kd_tree kd)) /\ (forall i, In i (leaves (kd_tree kd)) <-> (i < length data)%nat).
Proof.
  intros HR HK LB IB. destruct (built_ok data 2 10 kd ltac:(lia) HR HK) as (_ & NE & KD & KM & B0 & C & L & ND & IN).
  split; [|auto]. split; [exact (b_splits _ _ _ _ _ B0)|]. split; [exact (b_nonempty _ _ _ _ _ B0)|]. split; [exact C|]. split.
  - unfold KDTree in HK. destruct data as [|x rows]; [congruence|]. cbn [Z.ltb Z.compare] in HK. change (10 <? 1)%Z with false in HK. cbv iota in HK. cbn [maxes_of mins_of bind] in HK.
    destruct (build _ _ _ _ _ _) as [t|] eqn:E in HK; [|discriminate]. cbn [bind] in HK. injection HK as <-. cbn [kd_maxes kd_mins].
    inversion IB; subst. destruct (fold_box B rows x H1 H2) as [A1 A2].
    revert A1 A2. clear. generalize (fold_left (zipw Qmin) rows x) as l2, (fold_left (zipw Qmax) rows x) as l1. intros l2 l1 A1. revert l2. unfold mk_rect, zipw.
    induction A1 as [|b c B l1 Hb A1 IH]; intros l2 A2; inversion A2; subst; simpl; constructor; [|apply IH; assumption]. cbn [fst snd].
    destruct (Q.min_spec c y) as [[_ E]|[_ E]], (Q.max_spec c y) as [[_ F]|[_ F]]; rewrite E, F; tauto.
  - intros i Hi. apply IN in Hi. rewrite Forall_forall in IB. apply IB. apply nth_In. auto.
Qed.
