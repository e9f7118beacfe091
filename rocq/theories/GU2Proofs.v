(** Proofs for C69, part 2: an answer on the rotated grid is an answer on the grid. *)
From Coq Require Import String.
From Verif Require Import Base PyStr QBase LonModel LonSpec LonProofs DateModel UngrModel UngrSpec InterpModel InterpSpec InterpProofs Interp2Proofs GUModel GUSpec GUProofs.
From Coq Require Import List Lia Lqa Arith QArith Qabs.
Import ListNotations.
Open Scope string_scope. Open Scope list_scope. Open Scope nat_scope. Notation length := List.length.

(** ** the nearest node is an end of the cell *)
Lemma nearest_end a c t k : good_axis a -> encloses a c t -> k = c \/ k = S c -> (Qabs (t - nth k a 0) <= Qabs (t - nth c a 0))%Q -> (Qabs (t - nth k a 0) <= Qabs (t - nth (S c) a 0))%Q -> nearest_on a t k.
Proof.
  intros [HI H2] [Hc E] Hk A B. split; [lia|]. intros j Hj. destruct (Nat.le_gt_cases j c) as [C|C].
  - eapply Qle_trans; [exact A|]. assert (nth j a 0 <= nth c a 0)%Q by (apply increasing_nth_le; auto; lia). rewrite !Qabs_pos by lra. lra.
  - eapply Qle_trans; [exact B|]. assert (nth (S c) a 0 <= nth j a 0)%Q by (apply increasing_nth_le; auto; lia). rewrite !Qabs_neg by lra. lra.
Qed.
Lemma nearest_cell a t k : good_axis a -> within a t -> nearest_on a t k -> exists c, encloses a c t /\ (k = c \/ k = S c).
Proof.
  intros [HI H2] [W1 W2] [Hk N]. rewrite last_nth in W2. rewrite hd_nth in W1. destruct (Qlt_le_dec t (nth k a 0%Q)) as [C|C].
  - destruct k as [|k]; [lra|]. exists k. split; auto. split; auto. split; [|lra]. destruct (Qlt_le_dec t (nth k a 0%Q)) as [D|D]; auto. exfalso.
    assert (nth k a 0 < nth (S k) a 0)%Q by (apply increasing_nth; auto). specialize (N k ltac:(lia)). rewrite !Qabs_neg in N by lra. lra.
  - destruct (Nat.eq_dec (S k) (length a)) as [D|D].
    + destruct k as [|k]; [lia|]. exists k. split; auto. split; [lia|]. replace (length a - 1) with (S k) in W2 by lia. assert (nth k a 0 < nth (S k) a 0)%Q by (apply increasing_nth; auto; lia). split; lra.
    + exists k. split; auto. split; [lia|]. split; auto. destruct (Qlt_le_dec (nth (S k) a 0%Q) t) as [F|F]; auto. exfalso. assert (nth k a 0 < nth (S k) a 0)%Q by (apply increasing_nth; auto; lia). specialize (N (S k) ltac:(lia)). rewrite !Qabs_pos in N by lra. lra.
Qed.
Lemma encloses_within a c t : increasing a -> encloses a c t -> within a t.
Proof.
  intros HI [Hc [A B]]. unfold within. rewrite hd_nth, last_nth. split; [eapply Qle_trans; [|exact A]|eapply Qle_trans; [exact B|]]; apply increasing_nth_le; auto; lia.
Qed.

(** ** one dimension: the positions on the axis that serve for the position on the rotated axis *)
Record carries (d d' : dim) (phi : nat -> nat) (P : Q -> Prop) (gap : Prop) (t' : Q) : Prop := {
  cy_good : good_axis (continued d); cy_good' : good_axis (continued d');
  cy_in : forall c', encloses (continued d') c' t' -> exists t c, P t /\ cell_transfer d d' phi c' c t' t;
  cy_out : ~ within (continued d') t' -> exists t, P t /\ (~ within (continued d) t \/ gap) }.
Lemma carries_some d d' phi P gap t' : carries d d' phi P gap t' -> exists t, P t.
Proof.
  intros [G G' I O]. destruct (out_of_bounds1 (continued d') t') eqn:E.
  - destruct O as (t & Pt & _); eauto. intros W. apply out_of_bounds1_spec in W. congruence.
  - apply out_of_bounds1_spec in E. destruct (I _ (cell_index_encloses _ _ G' E)) as (t & c & Pt & _). eauto.
Qed.
Lemma carries_nearest d d' phi P gap t' k' : carries d d' phi P gap t' -> within (continued d') t' -> nearest_on (continued d') t' k' ->
  exists t k, P t /\ within (continued d) t /\ nearest_on (continued d) t k /\ back d k = phi (back d' k').
Proof.
  intros [G G' I _] W N. destruct (nearest_cell _ _ _ G' W N) as (c' & E & K). destruct (I _ E) as (t & c & Pt & T). destruct T as (E0 & HI & LO & B0 & B1). destruct N as [_ N]. destruct E as [L' E]. exists t.
  pose proof (N c' ltac:(lia)) as N0. pose proof (N (S c') ltac:(lia)) as N1. pose proof E0 as [L0 E1].
  assert (Qabs (t - nth c (continued d) 0) == Qabs (t' - nth c' (continued d') 0))%Q as A0 by (rewrite LO; reflexivity).
  assert (Qabs (t - nth (S c) (continued d) 0) == Qabs (t' - nth (S c') (continued d') 0))%Q as A1.
  { rewrite (Qabs_neg (t - _)%Q) by lra. rewrite (Qabs_neg (t' - _)%Q) by lra. lra. }
  destruct K as [-> | ->]; [exists c|exists (S c)]; (split; [exact Pt|]); (split; [eapply encloses_within; [apply G|exact E0]|]); (split; [|auto]); eapply nearest_end; eauto; rewrite ?A0, ?A1; auto; lra.
Qed.
(** nothing changes *)
Lemma carries_same d (P : Q -> Prop) gap t : good_axis (continued d) -> P t -> carries d d (fun i => i) P gap t.
Proof.
  intros G Pt. split; auto.
  - intros c' E. exists t, c'. split; auto. split; auto. split; [reflexivity|]. split; [reflexivity|]. auto.
  - intros W. exists t. auto.
Qed.

(** ** all dimensions *)
Inductive all_carry (gap : Prop) : list dim -> list dim -> list (nat -> nat) -> list (Q -> Prop) -> list Q -> Prop :=
| ac_nil : all_carry gap [] [] [] [] []
| ac_cons d d' phi P t ds ds' phis Ps ts : carries d d' phi P gap t -> all_carry gap ds ds' phis Ps ts -> all_carry gap (d :: ds) (d' :: ds') (phi :: phis) (P :: Ps) (t :: ts).
Definition holds (Ps : list (Q -> Prop)) (ts : list Q) : Prop := Forall2 (fun P t => P t) Ps ts.
Fixpoint apply_all (phis : list (nat -> nat)) (e : list nat) : list nat := match phis, e with f :: phis, i :: e => f i :: apply_all phis e | _, _ => e end.
Lemma all_some gap ds ds' phis Ps ts : all_carry gap ds ds' phis Ps ts -> exists pos, holds Ps pos.
Proof. induction 1 as [|? ? ? ? ? ? ? ? ? ? C _ [pos IH]]; [exists []; constructor|]. destruct (carries_some _ _ _ _ _ _ C) as (u & Pt). exists (u :: pos). constructor; auto. Qed.
Lemma all_out gap ds ds' phis Ps ts : all_carry gap ds ds' phis Ps ts -> ~ inside (map continued ds') ts -> exists pos, holds Ps pos /\ (~ inside (map continued ds) pos \/ gap).
Proof.
  induction 1 as [|d d' phi P t ds ds' phis Ps ts C C' IH]; intros N; [exfalso; apply N; constructor|]. destruct (out_of_bounds1 (continued d') t) eqn:E.
  - destruct (cy_out _ _ _ _ _ _ C) as (u & Pu & H); [intros W; apply out_of_bounds1_spec in W; congruence|]. destruct (all_some _ _ _ _ _ _ C') as (pos & Hp). exists (u :: pos). split; [constructor; auto|].
    destruct H as [H|H]; auto. left. intros I. inversion I; subst. auto.
  - apply out_of_bounds1_spec in E. destruct IH as (pos & Hp & H); [intros I; apply N; constructor; auto|]. destruct (carries_some _ _ _ _ _ _ C) as (u & Pu). exists (u :: pos). split; [constructor; auto|]. destruct H as [H|H]; auto. left. intros I. inversion I; subst. auto.
Qed.
(** moves an index of the one cell to the other *)
Fixpoint move (c' c e' : list nat) : list nat := match c', c, e' with i' :: c', i :: c, k' :: e' => (i + (k' - i')) :: move c' c e' | _, _, _ => [] end.
Lemma all_cells gap ds ds' phis Ps ts : all_carry gap ds ds' phis Ps ts -> forall cell', cell_of (map continued ds') cell' ts ->
  exists pos cell, holds Ps pos /\ inside (map continued ds) pos /\ cell_of (map continued ds) cell pos /\
    (forall e', corner cell' e' -> corner cell (move cell' cell e') /\ wrapped ds (move cell' cell e') = apply_all phis (wrapped ds' e')) /\
    (forall f' f, (forall e', corner cell' e' -> f' e' == f (move cell' cell e'))%Q -> (multilinear (map continued ds') cell' ts f' == multilinear (map continued ds) cell pos f)%Q).
Proof.
  induction 1 as [|d d' phi P t ds ds' phis Ps ts C C' IH]; intros cell' HC; inversion HC as [|a axes i' cc t0 x E HC']; subst.
  - exists [], []. split; [constructor|]. split; [constructor|]. split; [constructor|]. split.
    + intros e' He. inversion He; subst. split; [constructor|reflexivity].
    + intros f' f Hf. cbn. apply (Hf []). constructor.
  - destruct (IH _ HC') as (pos & cell & Hp & HI & HCo & HM & HF). destruct (cy_in _ _ _ _ _ _ C _ E) as (u & i & Pu & T). destruct T as (E1 & HH & LO & B0 & B1).
    exists (u :: pos), (i :: cell). split; [constructor; auto|]. split; [constructor; auto; eapply encloses_within; [apply (cy_good _ _ _ _ _ _ C)|exact E1]|]. split; [constructor; auto|]. split.
    + intros e' He. inversion He as [|? k' ? es Hk Hes]; subst. destruct (HM _ Hes) as [M1 M2]. cbn [move]. rewrite !wrapped_back, M2. cbn [apply_all]. split.
      * constructor; auto. destruct Hk as [-> | ->]; lia.
      * f_equal. destruct Hk as [-> | ->]; [rewrite Nat.sub_diag, Nat.add_0_r; auto|]. replace (i + (S i' - i')) with (S i) by lia. auto.
    + intros f' f Hf. cbn [map multilinear]. set (lo := nth i (continued d) 0%Q) in *. set (hi := nth (S i) (continued d) 0%Q) in *. set (lo' := nth i' (continued d') 0%Q) in *. set (hi' := nth (S i') (continued d') 0%Q) in *.
      rewrite (HF (fun e => f' (i' :: e)) (fun e => f (i :: e))), (HF (fun e => f' (S i' :: e)) (fun e => f (S i :: e))).
      * rewrite <- HH, <- LO. assert (hi' - lo' == hi - lo)%Q as -> by lra. reflexivity.
      * intros e' He. rewrite (Hf (S i' :: e')) by (constructor; auto). cbn [move]. replace (i + (S i' - i')) with (S i) by lia. reflexivity.
      * intros e' He. rewrite (Hf (i' :: e')) by (constructor; auto). cbn [move]. rewrite Nat.sub_diag, Nat.add_0_r. reflexivity.
Qed.
Lemma inside_dec axes x : length x = length axes -> inside axes x \/ ~ inside axes x.
Proof. intros L. destruct (out_of_bounds axes x) eqn:E; [right|left]; [intros H; apply out_of_bounds_spec in H; auto; congruence|apply out_of_bounds_spec; auto]. Qed.
Lemma all_carry_length gap ds ds' phis Ps ts : all_carry gap ds ds' phis Ps ts -> length ts = length ds' /\ length ds = length ds'.
Proof. induction 1 as [|? ? ? ? ? ? ? ? ? ? ? ? [A B]]; cbn; auto. Qed.
Lemma wrapped_length ds : forall e, length (wrapped ds e) = length e.
Proof. induction ds as [|d ds IH]; intros [|k e]; cbn; auto. Qed.
Lemma cell_of_length axes cell x : cell_of axes cell x -> length cell = length axes.
Proof. induction 1; cbn; auto. Qed.
Lemma move_corner cell e : corner cell e -> forall cell', length cell = length cell' -> corner cell' (move cell cell' e).
Proof. induction 1 as [|i k c e Hk He IH]; intros [|i' c'] LC; try discriminate; cbn [move]; constructor; [destruct Hk as [-> | ->]; lia|apply IH; cbn in LC; lia]. Qed.
Lemma move_back cell e : corner cell e -> forall cell', length cell = length cell' -> move cell' cell (move cell cell' e) = e.
Proof. induction 1 as [|i k c e Hk He IH]; intros [|i' c'] LC; try discriminate; cbn [move]; auto. rewrite IH by (cbn in LC; lia). f_equal. destruct Hk as [-> | ->]; lia. Qed.
Theorem transfer_linear gap ds ds' phis Ps ts values values' mdfms flag r : all_carry gap ds ds' phis Ps ts -> (forall e, length e = length ds' -> values' e = values (apply_all phis e)) ->
  linear_answer ds' values' mdfms false (ts, flag) r -> exists pos, holds Ps pos /\ (linear_answer ds values mdfms false (pos, flag) r \/ (gap /\ r = None)).
Proof.
  intros AC HV [H1 H2]. cbn [fst snd] in *. assert (SD : skipped mdfms (ts, flag) \/ ~ skipped mdfms (ts, flag)) by (unfold skipped; cbn; destruct mdfms, flag; intuition congruence).
  assert (SK : forall pos : list Q, skipped mdfms (pos, flag) <-> skipped mdfms (ts, flag)) by (intros; reflexivity).
  destruct SD as [S|S].
  - destruct (all_some _ _ _ _ _ _ AC) as (pos & Hp). exists pos. split; auto. left. split; [intros _; auto|]. intros N. exfalso. apply N. exact S.
  - destruct (H2 S) as [HO HI]. destruct (all_carry_length _ _ _ _ _ _ AC) as [L1 L2]. destruct (inside_dec (map continued ds') ts) as [I|I]; [rewrite map_length; auto| |].
    + destruct (HI I) as (cell' & HC & A & B). destruct (all_cells _ _ _ _ _ _ AC _ HC) as (pos & cell & Hp & Hi & Hc & HM & HF). exists pos. split; auto. left. split; [intros X; contradiction|]. intros _. split; [intros _ N; contradiction|].
      intros _. exists cell. split; auto.
      assert (LW : forall e', corner cell' e' -> values' (wrapped ds' e') = values (wrapped ds (move cell' cell e'))).
      { intros e' He. destruct (HM _ He) as [_ ->]. apply HV. pose proof (corner_length _ _ He) as LE.
        rewrite wrapped_length, LE, (cell_of_length _ _ _ HC). apply map_length. }
      split.
      * intros f Hf. destruct (A (fun e' => f (move cell' cell e'))) as (q & Er & Eq).
        -- intros e' He. rewrite LW by auto. apply Hf. apply HM. auto.
        -- exists q. split; auto. rewrite Eq. apply HF. intros e' He. reflexivity.
      * intros e He N. assert (LC : length cell = length cell') by (rewrite (cell_of_length _ _ _ HC), (cell_of_length _ _ _ Hc), !map_length; auto).
        apply (B (move cell cell' e)); [apply move_corner; auto|]. rewrite LW by (apply move_corner; auto). rewrite move_back by auto. exact N.
    + pose proof (HO eq_refl I) as ->. destruct (all_out _ _ _ _ _ _ AC I) as (pos & Hp & [N|G]); exists pos; (split; [auto|]); [left|right; auto]. split; [auto|]. intros _. split; auto. intros X. contradiction.
Qed.
Lemma all_nearest gap ds ds' phis Ps ts : all_carry gap ds ds' phis Ps ts -> inside (map continued ds') ts -> forall k', Forall2 (fun (at_ : list Q * Q) i => nearest_on (fst at_) (snd at_) i) (combine (map continued ds') ts) k' ->
  exists pos k, holds Ps pos /\ inside (map continued ds) pos /\ Forall2 (fun (at_ : list Q * Q) i => nearest_on (fst at_) (snd at_) i) (combine (map continued ds) pos) k /\ wrapped ds k = apply_all phis (wrapped ds' k') /\ length k' = length ds'.
Proof.
  induction 1 as [|d d' phi P t ds ds' phis Ps ts C C' IH]; intros HI k' HK.
  - inversion HK; subst. exists [], []. repeat split; constructor.
  - inversion HI as [|? ? ? ? W HI']; subst. cbn [map combine] in HK. inversion HK as [|? k0 ? ks N HK']; subst. cbn [fst snd] in N. destruct (IH HI' _ HK') as (pos & k & Hp & Hi & Hk & Ew & L).
    destruct (carries_nearest _ _ _ _ _ _ _ C W N) as (u & i & Pu & Wu & Nu & B). exists (u :: pos), (i :: k). split; [constructor; auto|]. split; [constructor; auto|]. split; [constructor; auto|]. split; [rewrite !wrapped_back, B, Ew; reflexivity|cbn; auto].
Qed.
Theorem transfer_nearest gap ds ds' phis Ps ts values values' mdfms flag r : all_carry gap ds ds' phis Ps ts -> (forall e, length e = length ds' -> values' e = values (apply_all phis e)) ->
  nearest_answer ds' values' mdfms false (ts, flag) r -> exists pos, holds Ps pos /\ (nearest_answer ds values mdfms false (pos, flag) r \/ (gap /\ r = None)).
Proof.
  intros AC HV [H1 H2]. cbn [fst snd] in *. assert (SD : skipped mdfms (ts, flag) \/ ~ skipped mdfms (ts, flag)) by (unfold skipped; cbn; destruct mdfms, flag; intuition congruence).
  destruct SD as [S|S].
  - destruct (all_some _ _ _ _ _ _ AC) as (pos & Hp). exists pos. split; auto. left. split; [intros _; auto|]. intros N. exfalso. apply N. exact S.
  - destruct (H2 S) as [HO HI]. destruct (all_carry_length _ _ _ _ _ _ AC) as [L1 L2]. destruct (inside_dec (map continued ds') ts) as [I|I]; [rewrite map_length; auto| |].
    + destruct (HI I) as (k' & Er & HK). destruct (all_nearest _ _ _ _ _ _ AC I _ HK) as (pos & k & Hp & Hi & Hk & Ew & L). exists pos. split; auto. left. split; [intros X; contradiction|]. intros _. split; [intros _ N; contradiction|].
      intros _. exists k. split; auto. rewrite Er, Ew. apply HV. rewrite <- L. clear. revert k'. induction ds' as [|d ds' IH]; intros [|k k']; cbn; auto.
    + pose proof (HO eq_refl I) as ->. destruct (all_out _ _ _ _ _ _ AC I) as (pos & Hp & [N|G]); exists pos; (split; [auto|]); [left|right; auto]. split; [auto|]. intros _. split; auto. intros X. contradiction.
Qed.
