(** Proofs for C34: the cells of the aggregation grid. *)
From Verif Require Import Base PyStr QBase LonModel LonSpec UngrModel UngrSpec SubsetModel SubsetSpec GridIndexModel GridIndexSpec GridIndexProofs UtilProofs AggModel AggSpec.
From Coq Require Import Lqa.
Open Scope Q_scope.
Notation length := List.length.
Lemma half d : d == 2 * (d / 2).
Proof. field. Qed.
Lemma step k d : N2Q (S k) * d == N2Q k * d + d.
Proof. rewrite N2Q_S. ring. Qed.
Lemma mono j k d : 0 < d -> (j <= k)%nat -> N2Q j * d <= N2Q k * d.
Proof. intros D H. apply Qmult_le_compat_r; [apply N2Q_le; auto|lra]. Qed.
Lemma at0 d : N2Q 0 * d == 0.
Proof. rewrite N2Q_0. ring. Qed.
Lemma at1 d : N2Q 1 * d == d.
Proof. rewrite step, at0. ring. Qed.
Definition cell_count (s e d : Q) : nat := Z.to_nat (Qceiling ((e - s) / d)).
Definition centre (s d : Q) (k : nat) : Q := s + d / 2 + N2Q k * d.
Lemma count_spec s e d : s < e -> 0 < d -> let n := cell_count s e d in (1 <= n)%nat /\ e <= s + N2Q n * d /\ s + N2Q n * d < e + d.
Proof.
  intros H D n. pose proof (Qle_ceiling ((e - s) / d)) as C1. pose proof (Qceiling_lt ((e - s) / d)) as C2. unfold n, cell_count. set (c := Qceiling ((e - s) / d)) in *.
  assert (P : 0 < (e - s) / d) by (apply Qlt_shift_div_l; lra).
  assert (0 < c)%Z. { rewrite Zlt_Qlt. change (inject_Z 0) with 0. lra. }
  assert (N : N2Q (Z.to_nat c) = inject_Z c) by (unfold N2Q; rewrite Z2Nat.id by lia; auto). rewrite N. split; [lia|].
  assert (E : (e - s) / d * d == e - s) by (field; lra). unfold Z.sub in C2. rewrite inject_Z_plus in C2. change (inject_Z (- (1))) with (-(1)) in C2.
  set (q := (e - s) / d) in *. set (i := inject_Z c) in *. split; nra.
Qed.
Lemma count_many s e d : 0 < d -> d < e - s -> (2 <= cell_count s e d)%nat.
Proof.
  intros D H. destruct (count_spec s e d ltac:(lra) D) as (N & A & B). destruct (cell_count s e d) as [|[|k]]; [lia| |lia].
  change (N2Q 1) with 1 in A. lra.
Qed.
Lemma count_one s e d : 0 < d -> s < e -> e - s <= d -> cell_count s e d = 1%nat.
Proof.
  intros D H W. destruct (count_spec s e d H D) as (N & A & B). destruct (cell_count s e d) as [|[|k]]; [lia|auto|].
  rewrite 2!N2Q_S in B. pose proof (N2Q_le 0 k ltac:(lia)). rewrite N2Q_0 in H0. nra.
Qed.
Lemma count_none s e d : 0 < d -> e <= s -> cell_count s e d = 0%nat.
Proof.
  intros D H. unfold cell_count. assert (Qceiling ((e - s) / d) <= 0)%Z.
  { change 0%Z with (Qceiling 0). apply Qceiling_resp_le. apply Qle_shift_div_r; lra. }
  lia.
Qed.
Lemma Qceiling_comp' a b : a == b -> Qceiling a = Qceiling b.
Proof. intros E. apply Qceiling_comp. auto. Qed.
Lemma grid_array s e d : ~ d == 0 -> aggregation_grid_array s e d = Ok (map (centre s d) (seq 0 (cell_count s e d))).
Proof.
  intros D. unfold aggregation_grid_array, arange. destruct (Qeqb_spec d 0); [contradiction|].
  rewrite (Qceiling_comp' _ ((e - s) / d)) by (field; auto). reflexivity.
Qed.
Lemma diffs_seq s d n : forall k, Forall (fun x => x == d) (diffs (map (centre s d) (seq k n))) /\ length (diffs (map (centre s d) (seq k n))) = (n - 1)%nat.
Proof.
  induction n as [|n IH]; intros k; [split; [constructor|reflexivity]|]. destruct n as [|n]; [split; [constructor|reflexivity]|].
  destruct (IH (S k)) as [F L]. assert (E : diffs (map (centre s d) (seq k (S (S n)))) = (centre s d (S k) - centre s d k) :: diffs (map (centre s d) (seq (S k) (S n)))) by reflexivity.
  rewrite E. split; [constructor; auto; unfold centre; rewrite N2Q_S; ring|]. cbn [length]. rewrite L. lia.
Qed.
Lemma last_forall (P : Q -> Prop) l x : l <> [] -> Forall P l -> P (last l x).
Proof. intros N F. rewrite Forall_forall in F. apply F. apply last_in. auto. Qed.
Lemma nth_error_combine {A B} (l : list A) (m : list B) : forall k a b, nth_error (combine l m) k = Some (a, b) <-> nth_error l k = Some a /\ nth_error m k = Some b.
Proof.
  revert m. induction l as [|x l IH]; intros m k a b.
  { destruct k; cbn; split; intros; try discriminate; intuition discriminate. }
  destruct m as [|y m]. { destruct k; cbn; split; intros; try discriminate; intuition discriminate. }
  destruct k as [|k]; cbn; [|apply IH].
  split; [intros [= <- <-]; auto|intros [[= <-] [= <-]]; auto].
Qed.
(** unclipped guessed bounds *)
Lemma guess_some lat s d n : (2 <= n)%nat -> exists b, guess_bounds lat (map (centre s d) (seq 0 n)) = Ok (if lat && forallb (fun p => Qleb (-(90)) p && Qleb p 90) (map (centre s d) (seq 0 n)) then map (fun lh : Q * Q => (clip (-(90)) 90 (fst lh), clip (-(90)) 90 (snd lh))) b else b)
  /\ length b = n /\ forall k lo hi, nth_error b k = Some (lo, hi) -> lo == s + N2Q k * d /\ hi == s + N2Q (S k) * d.
Proof.
  intros N. destruct (diffs_seq s d n 0) as [F L]. unfold guess_bounds. set (pts := map (centre s d) (seq 0 n)) in *. destruct (diffs pts) as [|d0 ds] eqn:E; [cbn in L; lia|].
  eexists. split; [reflexivity|]. inversion F as [|? ? F0 F1]; subst.
  assert (LR : length ((d0 :: ds) ++ [last (d0 :: ds) 0]) = n) by (rewrite app_length; cbn in *; lia).
  assert (LL : length (d0 :: d0 :: ds) = n) by (cbn in *; lia).
  assert (LP : length pts = n) by (unfold pts; rewrite map_length, seq_length; auto).
  split; [rewrite map_length, !combine_length; lia|].
  intros k lo hi Hk. rewrite nth_error_map in Hk. destruct (nth_error (combine pts _) k) as [[p [l r]]|] eqn:Ek; [|discriminate]. injection Hk as <- <-.
  apply nth_error_combine in Ek. destruct Ek as [Ep Ek]. apply nth_error_combine in Ek. destruct Ek as [El Er]. cbn [fst snd].
  assert (FL : Forall (fun x => x == d) (d0 :: d0 :: ds)) by (constructor; auto).
  assert (FR : Forall (fun x => x == d) ((d0 :: ds) ++ [last (d0 :: ds) 0])) by (apply Forall_app; split; auto; constructor; [apply (last_forall (fun x => x == d)); [discriminate|auto]|constructor]).
  rewrite Forall_forall in FL, FR. apply nth_error_In in El, Er. apply FL in El. apply FR in Er.
  unfold pts in Ep. rewrite nth_error_map in Ep. destruct (nth_error (seq 0 n) k) as [j|] eqn:Ej; [|discriminate]. injection Ep as <-.
  assert (j = k). { assert (k < n)%nat by (rewrite <- (seq_length n 0); apply nth_error_Some; congruence). rewrite (nth_error_nth' _ 0%nat) in Ej by (rewrite seq_length; auto). rewrite seq_nth in Ej by auto. injection Ej as <-. reflexivity. } subst j.
  unfold centre. rewrite El, Er, N2Q_S. split; field.
Qed.
Lemma tiles_good a lo hi : tiles a lo hi -> decreasing a = false -> good_axis a.
Proof. intros (L & C & b0 & bn & H0 & _) D. split; [destruct (ax_bounds a); [destruct (length (@nil (Q*Q))) in H0; discriminate|discriminate]|]. split; auto. rewrite D. auto. Qed.
Lemma up_cells (b : list (Q * Q)) (g : nat -> Q) : (forall k, (k < length b)%nat -> g k < g (S k)) -> (forall k lo hi, nth_error b k = Some (lo, hi) -> lo == g k /\ hi == g (S k)) -> contiguous_up b.
Proof.
  revert g. induction b as [|[lo hi] b IH]; intros g M H; [exact I|]. cbn [contiguous_up]. destruct (H 0%nat lo hi eq_refl) as [A B]. split; [rewrite A, B; apply M; cbn; lia|]. split.
  - destruct b as [|[lo' hi'] b]; auto. destruct (H 1%nat lo' hi' eq_refl) as [A' _]. rewrite A', B. reflexivity.
  - apply (IH (fun k => g (S k))); [intros k Hk; apply (M (S k)); cbn; lia|]. intros k l h Hk. apply (H (S k)). auto.
Qed.
Lemma cell_search (g : nat -> Q) n v : g 0%nat <= v < g n -> exists k, (k < n)%nat /\ g k <= v < g (S k).
Proof.
  induction n as [|n IH]; intros [A B]; [lra|]. destruct (Qlt_le_dec v (g n)) as [H|H].
  - destruct IH as (k & Hk & V); [split; auto|]. exists k. split; [lia|auto].
  - exists n. split; [lia|]. split; auto.
Qed.
Lemma covers_cells a (g : nat -> Q) lo hi : (forall k l h, nth_error (ax_bounds a) k = Some (l, h) -> l == g k /\ h == g (S k)) -> (forall k, (k < length (ax_bounds a))%nat -> g k < g (S k)) ->
  g 0%nat <= lo -> hi <= g (length (ax_bounds a)) -> covers a lo hi.
Proof.
  intros H M A B v V. destruct (cell_search g (length (ax_bounds a)) v) as (k & Hk & VK); [split; [apply Qle_trans with lo; tauto|apply Qlt_le_trans with hi; tauto]|].
  exists (Z.of_nat k). split; [lia|]. rewrite Nat2Z.id. destruct (nth_error (ax_bounds a) k) as [[l h]|] eqn:E; [|apply nth_error_None in E; lia].
  exists (l, h). split; auto. destruct (H k l h E) as [E1 E2]. cbn [fst snd]. specialize (M k Hk). destruct (Qmin_l l h) as [Q1 Q2]; [rewrite E1, E2; auto|]. rewrite Q1, Q2, E1, E2. auto.
Qed.
Lemma tiles_cells a (g : nat -> Q) : (1 <= length (ax_bounds a))%nat -> length (ax_points a) = length (ax_bounds a) -> (forall k l h, nth_error (ax_bounds a) k = Some (l, h) -> l == g k /\ h == g (S k)) -> (forall k, (k < length (ax_bounds a))%nat -> g k < g (S k)) ->
  tiles a (g 0%nat) (g (length (ax_bounds a))).
Proof.
  intros N L H M. split; auto. split; [apply (up_cells _ g); auto|].
  destruct (nth_error (ax_bounds a) 0) as [b0|] eqn:E0; [|apply nth_error_None in E0; lia]. destruct (nth_error (ax_bounds a) (length (ax_bounds a) - 1)) as [bn|] eqn:En; [|apply nth_error_None in En; lia].
  exists b0, bn. split; auto. split; auto. destruct b0 as [l0 h0], bn as [ln hn]. destruct (H _ _ _ E0) as [A _], (H _ _ _ En) as [_ B]. cbn [fst snd]. split; auto. rewrite B. replace (S (length (ax_bounds a) - 1))%nat with (length (ax_bounds a)) by lia. reflexivity.
Qed.
Lemma centres_up s d n : 0 < d -> match map (centre s d) (seq 0 n) with p0 :: p1 :: _ => Qltb p1 p0 | _ => false end = false.
Proof. intros D. pose proof (half d). destruct n as [|[|n]]; cbn [seq map]; auto. apply Qltb_ge. unfold centre. rewrite (N2Q_S 0), N2Q_0. lra. Qed.

(** the latitudes are clipped *)
Definition clip_cond (c : coord) (s e d : Q) : Prop := is_latitude c = true /\ -(90) <= s + d / 2 /\ s + N2Q (cell_count s e d) * d - d / 2 <= 90.
Lemma clipped_spec c s e d : 0 < d -> (1 <= cell_count s e d)%nat ->
  (is_latitude c && forallb (fun p => Qleb (-(90)) p && Qleb p 90) (map (centre s d) (seq 0 (cell_count s e d))) = true <-> clip_cond c s e d).
Proof.
  intros D N. rewrite andb_true_iff, forallb_forall. unfold clip_cond. split; intros [L H]; split; auto.
  - assert (P : forall k, (k < cell_count s e d)%nat -> -(90) <= centre s d k <= 90).
    { intros k Hk. assert (I : In (centre s d k) (map (centre s d) (seq 0 (cell_count s e d)))) by (apply in_map, in_seq; lia). apply H in I. apply andb_true_iff in I. rewrite !Qleb_le in I. auto. }
    pose proof (P 0%nat ltac:(lia)) as P0. pose proof (P (cell_count s e d - 1)%nat ltac:(lia)) as P1. unfold centre in *. pose proof (at0 d). pose proof (half d). split; [lra|].
    pose proof (half d) as HF. pose proof (step (cell_count s e d - 1) d) as EN. replace (S (cell_count s e d - 1)) with (cell_count s e d) in EN by lia. lra.
  - intros p Hp. apply in_map_iff in Hp. destruct Hp as (k & <- & Hk). apply in_seq in Hk. destruct H as [H1 H2]. apply andb_true_iff. rewrite !Qleb_le. unfold centre.
    pose proof (mono 0 k d D ltac:(lia)) as K0. pose proof (at0 d). pose proof (half d). pose proof (mono (S k) (cell_count s e d) d D ltac:(lia)) as K1. pose proof (step k d). split; lra.
Qed.
Lemma clip_in lo hi x : lo <= hi -> lo <= clip lo hi x <= hi.
Proof. intros H. unfold clip. destruct (Q.min_spec (Qmax x lo) hi) as [[A D]|[A D]], (Q.max_spec x lo) as [[B C]|[B C]]; lra. Qed.
Lemma clip_id lo hi x : lo <= x <= hi -> clip lo hi x == x.
Proof. intros H. unfold clip. destruct (Q.min_spec (Qmax x lo) hi) as [[A D]|[A D]], (Q.max_spec x lo) as [[B C]|[B C]]; lra. Qed.
Lemma clip_low lo hi x : x <= lo -> lo <= hi -> clip lo hi x == lo.
Proof. intros H H1. unfold clip. destruct (Q.min_spec (Qmax x lo) hi) as [[A D]|[A D]], (Q.max_spec x lo) as [[B C]|[B C]]; lra. Qed.
Lemma clip_high lo hi x : hi <= x -> lo <= hi -> clip lo hi x == hi.
Proof. intros H H1. unfold clip. destruct (Q.min_spec (Qmax x lo) hi) as [[A D]|[A D]], (Q.max_spec x lo) as [[B C]|[B C]]; lra. Qed.
#[global] Instance clip_proper lo hi : Proper (Qeq ==> Qeq) (clip lo hi).
Proof. intros x y H. unfold clip. rewrite H. reflexivity. Qed.

(** C34: one coordinate *)
Theorem partial_axis c s e d : s < e -> 0 < d -> exists a, partially_collapsed c (mkReq s e d) = Ok (Cells a) /\ decreasing a = false /\
  length (ax_bounds a) = cell_count s e d /\ ax_points a = map (centre s d) (seq 0 (cell_count s e d)) /\
  (e - s <= d -> ax_bounds a = [(s, e)] /\ tiles a s e /\ covers a s e) /\
  (d < e - s -> ~ clip_cond c s e d -> exists u, e <= u < e + d /\ tiles a s u /\ uniform a d /\ covers a s e) /\
  (d < e - s -> clip_cond c s e d -> exists u, e <= u < e + d /\ tiles a (Qmax s (-(90))) (Qmin u 90) /\ covers a (Qmax s (-(90))) (Qmin e 90) /\
     (forall k lo hi, nth_error (ax_bounds a) k = Some (lo, hi) -> -(90) <= lo /\ hi <= 90 /\ hi - lo <= d)).
Proof.
  intros H D. pose proof (half d) as HALF. destruct (count_spec s e d H D) as (N & U1 & U2). unfold partially_collapsed. cbn [rq_start rq_stop rq_step]. rewrite (grid_array s e d) by lra. cbn [bind rq_start rq_stop rq_step].
  destruct (Qlt_le_dec d (e - s)) as [W|W].
  - pose proof (count_many s e d D W) as N2. destruct (guess_some (is_latitude c) s d (cell_count s e d) N2) as (b & EB & LB & HB).
    pose proof (centres_up s d (cell_count s e d) D) as UP. set (pts := map (centre s d) (seq 0 (cell_count s e d))) in *.
    assert (LP : length pts = cell_count s e d) by (unfold pts; rewrite map_length, seq_length; auto).
    assert (EP : match pts with [p] => Ok (Cells (mkAx [p] [(s, e)])) | _ => bind (guess_bounds (is_latitude c) pts) (fun b => Ok (Cells (mkAx pts b))) end = bind (guess_bounds (is_latitude c) pts) (fun b => Ok (Cells (mkAx pts b)))).
    { destruct pts as [|p0 [|p1 r]]; cbn in LP; try lia; auto. }
    rewrite EP, EB. cbn [bind]. eexists. split; [reflexivity|]. split; [exact UP|]. cbn [ax_bounds].
    pose proof (clipped_spec c s e d D N) as CS. fold pts in CS. destruct (is_latitude c && forallb (fun p => Qleb (-(90)) p && Qleb p 90) pts) eqn:EC.
    + split; [rewrite map_length; auto|]. split; [reflexivity|]. split; [intros; lra|]. split; [intros _ NC; exfalso; apply NC, CS; auto|]. intros _ (CL & C1 & C2). exists (s + N2Q (cell_count s e d) * d). split; [auto|].
      set (g := fun k => clip (-(90)) 90 (s + N2Q k * d)).
      assert (GB : forall k l h, nth_error (map (fun lh : Q * Q => (clip (-(90)) 90 (fst lh), clip (-(90)) 90 (snd lh))) b) k = Some (l, h) -> l == g k /\ h == g (S k)).
      { intros k l h Hk. rewrite nth_error_map in Hk. destruct (nth_error b k) as [[l' h']|] eqn:E; [|discriminate]. injection Hk as <- <-. destruct (HB k l' h' E) as [A B]. cbn [fst snd]. unfold g. rewrite A, B. split; reflexivity. }
      assert (IN : forall k, (0 < k < cell_count s e d)%nat -> -(90) <= s + N2Q k * d <= 90).
      { intros k Hk. pose proof (mono 1 k d D ltac:(lia)) as K0. pose proof (at1 d). pose proof (half d). pose proof (mono (S k) (cell_count s e d) d D ltac:(lia)) as K1. pose proof (step k d). split; lra. }
      assert (G0 : g 0%nat == Qmax s (-(90))). { unfold g. pose proof (at0 d) as Z0. rewrite Z0. pose proof (IN 1%nat ltac:(lia)) as I1. pose proof (at1 d) as Z1. pose proof (half d). destruct (Q.max_spec s (-(90))) as [[A ->]|[A ->]]; [rewrite clip_low by lra; reflexivity|rewrite clip_id by lra; ring]. }
      assert (GN : g (cell_count s e d) == Qmin (s + N2Q (cell_count s e d) * d) 90).
      { unfold g. assert (I1 : -(90) <= s + N2Q (cell_count s e d - 1) * d) by (apply IN; lia). pose proof (half d) as HF. pose proof (step (cell_count s e d - 1) d) as EN. replace (S (cell_count s e d - 1)) with (cell_count s e d) in EN by lia.
        destruct (Q.min_spec (s + N2Q (cell_count s e d) * d) 90) as [[A ->]|[A ->]]; [apply clip_id; split; lra|apply clip_high; lra]. }
      assert (M : forall k, (k < cell_count s e d)%nat -> g k < g (S k)).
      { intros k Hk. destruct k as [|k].
        - rewrite G0. unfold g. pose proof (IN 1%nat ltac:(lia)) as I1. pose proof (at1 d). pose proof (half d). rewrite clip_id by auto. destruct (Q.max_spec s (-(90))) as [[A ->]|[A ->]]; lra.
        - assert (IK := IN (S k) ltac:(lia)). unfold g at 1. rewrite clip_id by auto. destruct (Nat.eq_dec (S (S k)) (cell_count s e d)) as [EQ|NE].
          + rewrite EQ, GN. pose proof (step (S k) d) as ST. rewrite EQ in ST. destruct (Q.min_spec (s + N2Q (cell_count s e d) * d) 90) as [[A ->]|[A ->]]; lra.
          + unfold g. rewrite clip_id by (apply IN; lia). pose proof (step (S k) d). lra. }
      set (a := mkAx pts (map (fun lh : Q * Q => (clip (-(90)) 90 (fst lh), clip (-(90)) 90 (snd lh))) b)).
      assert (LA : length (ax_bounds a) = cell_count s e d) by (cbn; rewrite map_length; auto).
      split; [|split].
      * assert (T : tiles a (g 0%nat) (g (length (ax_bounds a)))) by (apply tiles_cells; [rewrite LA; lia|cbn; rewrite map_length; lia|exact GB|rewrite LA; exact M]). rewrite LA in T.
        destruct T as (T1 & T2 & b0 & bn & T3 & T4 & T5 & T6). split; auto. split; auto. exists b0, bn. rewrite <- G0, <- GN. auto.
      * apply (covers_cells a g); [exact GB|rewrite LA; exact M|rewrite G0; lra|rewrite LA, GN]. destruct (Q.min_spec e 90) as [[A ->]|[A ->]], (Q.min_spec (s + N2Q (cell_count s e d) * d) 90) as [[B ->]|[B ->]]; lra.
      * intros k lo hi Hk. destruct (GB k lo hi Hk) as [A B]. split; [rewrite A; apply clip_in; lra|]. split; [rewrite B; apply clip_in; lra|].
        assert (Hk' : (k < cell_count s e d)%nat) by (rewrite <- LA; apply nth_error_Some; cbn; congruence). rewrite A, B. destruct k as [|k].
        -- rewrite G0. unfold g. rewrite clip_id by (apply IN; lia). pose proof (at1 d). pose proof (half d). destruct (Q.max_spec s (-(90))) as [[X ->]|[X ->]]; lra.
        -- unfold g at 2. rewrite clip_id by (apply IN; lia). destruct (Nat.eq_dec (S (S k)) (cell_count s e d)) as [EQ|NE]; [rewrite EQ, GN; pose proof (step (S k) d) as ST; rewrite EQ in ST; destruct (Q.min_spec (s + N2Q (cell_count s e d) * d) 90) as [[X ->]|[X ->]]; lra|]. unfold g. rewrite clip_id by (apply IN; lia). pose proof (step (S k) d). lra.
    + split; [auto|]. split; [reflexivity|]. split; [intros; lra|]. split; [|intros _ NC; apply CS in NC; discriminate]. intros _ _. exists (s + N2Q (cell_count s e d) * d). split; [auto|].
      set (g := fun k => s + N2Q k * d). set (a := mkAx pts b). assert (M : forall k, (k < cell_count s e d)%nat -> g k < g (S k)) by (intros k _; unfold g; pose proof (step k d); lra).
      split; [|split].
      * assert (T : tiles a (g 0%nat) (g (length (ax_bounds a)))) by (apply tiles_cells; [cbn; lia|cbn; lia|exact HB|cbn [ax_bounds a]; rewrite LB; exact M]). cbn [ax_bounds a] in T. rewrite LB in T.
        destruct T as (T1 & T2 & b0 & bn & T3 & T4 & T5 & T6). split; auto. split; auto. exists b0, bn. split; [auto|split; [auto|split; [|auto]]]. rewrite T5. unfold g. rewrite N2Q_0. ring.
      * intros k lo hi p Hk Hp. cbn [ax_bounds ax_points a] in *. destruct (HB k lo hi Hk) as [A B]. rewrite A, B, N2Q_S. split; [ring|].
        unfold pts in Hp. rewrite nth_error_map in Hp. destruct (nth_error (seq 0 (cell_count s e d)) k) as [j|] eqn:Ej; [|discriminate]. injection Hp as <-.
        assert (k < cell_count s e d)%nat by (rewrite <- (seq_length (cell_count s e d) 0); apply nth_error_Some; congruence). rewrite (nth_error_nth' _ 0%nat) in Ej by (rewrite seq_length; auto). rewrite seq_nth in Ej by auto. injection Ej as <-. unfold centre. cbn [Nat.add]. field.
      * apply (covers_cells a g); [exact HB|cbn [ax_bounds a]; rewrite LB; exact M|unfold g; pose proof (at0 d); lra|cbn [ax_bounds a]; rewrite LB; exact U1].
  - rewrite (count_one s e d D H W). cbn [seq map]. eexists. split; [reflexivity|]. split; [reflexivity|]. split; [reflexivity|]. split; [reflexivity|]. split; [|split; intros; lra].
    intros _. split; [reflexivity|]. set (a := mkAx _ _). set (g := fun k : nat => match k with O => s | _ => e end).
    assert (GB : forall k l h, nth_error (ax_bounds a) k = Some (l, h) -> l == g k /\ h == g (S k)) by (intros [|k] l h Hk; [injection Hk as <- <-; split; reflexivity|destruct k; discriminate]).
    assert (M : forall k, (k < length (ax_bounds a))%nat -> g k < g (S k)) by (intros [|k] Hk; [exact H|cbn in Hk; lia]).
    split; [apply (tiles_cells a g); auto|apply (covers_cells a g); auto; cbn; lra].
Qed.
Lemma no_cells c s e d : e <= s -> 0 < d -> partially_collapsed c (mkReq s e d) = Raises ValueError.
Proof. intros H D. unfold partially_collapsed. cbn [rq_start rq_stop rq_step]. rewrite (grid_array s e d) by lra. cbn [rq_start rq_stop rq_step bind]. rewrite (count_none s e d D H). reflexivity. Qed.

Lemma is_latitude_spec c : is_latitude c = true <-> c_name c = lit "latitude".
Proof. unfold is_latitude, str_eqb. destruct (str_eq_dec (c_name c) (lit "latitude")); split; congruence. Qed.
Theorem partial_cells c r : rq_start r < rq_stop r -> 0 < rq_step r -> exists a, partially_collapsed c r = Ok (Cells a) /\ cells_for c r a /\ good_axis a /\ decreasing a = false.
Proof.
  destruct r as [s e d]. cbn [rq_start rq_stop rq_step]. intros H D. destruct (partial_axis c s e d H D) as (a & E & DA & LB & EP & S1 & S2 & S3). exists a. split; auto.
  destruct (count_spec s e d H D) as (N & _ & _).
  assert (CL : clipped c a <-> clip_cond c s e d).
  { rewrite <- (clipped_spec c s e d D N). rewrite <- EP, andb_true_iff, is_latitude_spec, forallb_forall. unfold clipped. split; intros [A B]; split; auto; intros p Hp; specialize (B p Hp).
    - apply andb_true_iff. rewrite !Qleb_le. auto.
    - apply andb_true_iff in B. rewrite !Qleb_le in B. auto. }
  assert (CN : ax_bounds a <> [] /\ length (ax_points a) = length (ax_bounds a)).
  { split; [intros E0; rewrite E0 in LB; cbn in LB; lia|]. rewrite EP, LB, map_length, seq_length. auto. }
  split; [|split; auto].
  - constructor; cbn [rq_start rq_stop rq_step]; auto.
    + intros k p Hk. rewrite EP, nth_error_map in Hk. destruct (nth_error (seq 0 (cell_count s e d)) k) as [j|] eqn:Ej; [|discriminate]. injection Hk as <-.
      assert (k < cell_count s e d)%nat by (rewrite <- (seq_length (cell_count s e d) 0); apply nth_error_Some; congruence). rewrite (nth_error_nth' _ 0%nat) in Ej by (rewrite seq_length; auto). rewrite seq_nth in Ej by auto. injection Ej as <-. reflexivity.
    + intros W. exists s, e. split; [apply S1; auto|]. split; reflexivity.
    + intros W NC. rewrite CL in NC. apply S2; auto.
    + intros W C. apply CL in C. destruct (S3 W C) as (u & U & T & CV & X). exists u. split; auto. split; auto. split; auto. intros k lo hi Hk. apply (X k lo hi Hk).
  - split; [tauto|]. split; [tauto|]. rewrite DA. destruct (Qlt_le_dec d (e - s)) as [W|W].
    + assert (DEC : clip_cond c s e d \/ ~ clip_cond c s e d).
      { destruct (is_latitude c && forallb (fun p => Qleb (-(90)) p && Qleb p 90) (map (centre s d) (seq 0 (cell_count s e d)))) eqn:EC; [left|right]; rewrite <- (clipped_spec c s e d D N); congruence. }
      destruct DEC as [C|C]; [destruct (S3 W C) as (u & _ & T & _)|destruct (S2 W C) as (u & _ & T & _)]; destruct T as (_ & T & _); auto.
    + destruct (S1 W) as (_ & T & _). destruct T as (_ & T & _). auto.
Qed.
Lemma cells_for_proper c r r' a : rq_start r == rq_start r' -> rq_stop r == rq_stop r' -> rq_step r = rq_step r' -> cells_for c r a -> cells_for c r' a.
Proof.
  destruct r as [s e d], r' as [s' e' d']. cbn [rq_start rq_stop rq_step]. intros Hs He <- [F1 F0 F2 F3 F4]. cbn [rq_start rq_stop rq_step] in *.
  assert (TP : forall x y x' y', x == x' -> y == y' -> tiles a x y -> tiles a x' y').
  { intros x y x' y' Hx Hy (T1 & T2 & b0 & bn & B1 & B2 & B3 & B4). split; auto. split; auto. exists b0, bn. rewrite <- Hx, <- Hy. auto. }
  assert (CP : forall x y x' y', x == x' -> y == y' -> covers a x y -> covers a x' y').
  { intros x y x' y' Hx Hy C v Hv. apply C. rewrite Hx, Hy. auto. }
  constructor; cbn [rq_start rq_stop rq_step]; auto.
  - intros k p Hk. rewrite <- Hs. apply F0. auto.
  - intros W. destruct F2 as (lo & hi & E1 & E2 & E3); [lra|]. exists lo, hi. split; auto. split; [rewrite <- Hs; exact E2|rewrite <- He; exact E3].
  - intros W N. destruct F3 as (u & U & T & UN & C); [lra|auto|]. exists u. split; [lra|]. split; [apply (TP s u); auto; reflexivity|]. split; auto. apply (CP s e); auto.
  - intros W N. destruct F4 as (u & U & T & C & X); [lra|auto|]. exists u. split; [lra|]. split; [apply (TP (Qmax s (-(90))) (Qmin u 90)); auto; [apply Q.max_compat; auto; reflexivity|reflexivity]|]. split; [|auto].
    apply (CP (Qmax s (-(90))) (Qmin e 90)); auto; [apply Q.max_compat|apply Q.min_compat]; auto; reflexivity.
Qed.
