(** Proofs for C68: the cells of the sample. *)
From Coq Require Import String.
From Verif Require Import Base PyStr QBase LonModel LonSpec LonProofs DateModel FileListModel IndexModel UngrModel UngrSpec UngrProofs SubsetModel SubsetSpec SubsetProofs Subset2Proofs GridIndexModel GridIndexSpec GridIndexProofs IndexProofs UtilProofs AggModel AggSpec AggProofs Agg2Proofs Agg3Proofs GColModel GColSpec.
From Coq Require Import List Lqa Lia.
Import ListNotations.
Open Scope string_scope. Open Scope list_scope. Open Scope nat_scope. Notation length := List.length.

(** ** guessed bounds *)
Lemma diffs_length l : length (diffs l) = length l - 1.
Proof. unfold diffs. rewrite map_length, combine_length. destruct l; [reflexivity|]. cbn [tl length]. lia. Qed.
Lemma diffs_nth l k x : nth_error (diffs l) k = Some x -> exists p q, nth_error l k = Some p /\ nth_error l (S k) = Some q /\ x = (q - p)%Q.
Proof.
  unfold diffs. rewrite nth_error_map. destruct (nth_error (combine l (tl l)) k) as [[p q]|] eqn:E; [|discriminate]. intros [= <-]. apply nth_error_combine in E. destruct E as [A B].
  exists p, q. split; auto. split; auto. destruct l; [destruct k; discriminate|exact B].
Qed.
Lemma diffs_at l k p q : nth_error l k = Some p -> nth_error l (S k) = Some q -> nth_error (diffs l) k = Some (q - p)%Q.
Proof.
  intros A B. unfold diffs. rewrite nth_error_map. assert (E : nth_error (combine l (tl l)) k = Some (p, q)) by (apply nth_error_combine; split; auto; destruct l; [destruct k; discriminate|exact B]). rewrite E. reflexivity.
Qed.
Lemma last_nth_error {A} (l : list A) d : l <> [] -> nth_error l (length l - 1) = Some (last l d).
Proof.
  induction l as [|x l IH]; [congruence|]. intros _. destruct l as [|y l]; [reflexivity|]. replace (length (x :: y :: l) - 1) with (S (length (y :: l) - 1)) by (cbn; lia).
  cbn [nth_error]. rewrite IH by discriminate. reflexivity.
Qed.
(** the edge before point k *)
Definition edge (pts : list Q) (k : nat) : Q :=
  let P := fun j => nth j pts 0%Q in
  match k with
  | 0 => (P 0%nat - (P 1%nat - P 0%nat) / 2)%Q
  | S j => if k <? length pts then ((P j + P k) / 2)%Q else (P j + (P j - P (j - 1)%nat) / 2)%Q
  end.
Lemma at_nth (l : list Q) k p : nth_error l k = Some p -> nth k l 0%Q = p.
Proof. intros H. apply nth_error_nth. auto. Qed.
Lemma guess_edges lat pts : 2 <= length pts -> exists b,
  guess_bounds lat pts = Ok (if lat && forallb (fun p => Qleb (-(90)) p && Qleb p 90) pts then map (fun lh : Q * Q => (clip (-(90)) 90 (fst lh), clip (-(90)) 90 (snd lh))) b else b) /\
  length b = length pts /\ forall k lo hi, nth_error b k = Some (lo, hi) -> (lo == edge pts k)%Q /\ (hi == edge pts (S k))%Q.
Proof.
  intros N. unfold guess_bounds. pose proof (diffs_length pts) as L. destruct (diffs pts) as [|d0 ds] eqn:E; [cbn in L; lia|]. eexists. split; [reflexivity|].
  assert (LR : length ((d0 :: ds) ++ [last (d0 :: ds) 0%Q]) = length pts) by (rewrite app_length; cbn in *; lia).
  assert (LL : length (d0 :: d0 :: ds) = length pts) by (cbn in *; lia).
  split; [rewrite map_length, !combine_length; lia|].
  intros k lo hi Hk. rewrite nth_error_map in Hk. destruct (nth_error (combine pts _) k) as [[p [l r]]|] eqn:Ek; [|discriminate]. injection Hk as <- <-.
  apply nth_error_combine in Ek. destruct Ek as [Ep Ek]. apply nth_error_combine in Ek. destruct Ek as [El Er]. cbn [fst snd].
  assert (Hk : k < length pts) by (apply nth_error_Some; congruence).
  assert (D : forall j x, nth_error (d0 :: ds) j = Some x -> x = (nth (S j) pts 0 - nth j pts 0)%Q).
  { intros j x H. rewrite <- E in H. apply diffs_nth in H. destruct H as (a & c & A & B & ->). rewrite (at_nth _ _ _ A), (at_nth _ _ _ B). reflexivity. }
  pose proof (at_nth _ _ _ Ep) as P. split.
  - destruct k as [|k]; [cbn in El; injection El as <-; rewrite (D 0 d0 eq_refl); unfold edge; rewrite P; reflexivity|]. cbn [nth_error] in El. rewrite (D _ _ El), P. unfold edge. rewrite (proj2 (Nat.ltb_lt _ _) Hk), P. field.
  - unfold edge. destruct (Nat.ltb_spec (S k) (length pts)) as [H|H].
    + rewrite nth_error_app1 in Er by (cbn [length] in *; lia). rewrite (D _ _ Er), P. field.
    + rewrite nth_error_app2 in Er by (cbn [length] in *; lia). replace (k - length (d0 :: ds)) with 0 in Er by (cbn [length] in *; lia). assert (r = last (d0 :: ds) 0%Q) by (cbn [nth_error] in Er; congruence). subst r.
      assert (X : nth_error (d0 :: ds) (length (d0 :: ds) - 1) = Some (last (d0 :: ds) 0%Q)) by (apply last_nth_error; discriminate). rewrite (D _ _ X).
      replace (S (length (d0 :: ds) - 1)) with k by (cbn [length] in *; lia). replace (length (d0 :: ds) - 1) with (k - 1) by (cbn [length] in *; lia). rewrite P. reflexivity.
Qed.
Lemma guess_halfway lat pts : 2 <= length pts -> exists b,
  guess_bounds lat pts = Ok (if lat && forallb (fun p => Qleb (-(90)) p && Qleb p 90) pts then map (fun lh : Q * Q => (clip (-(90)) 90 (fst lh), clip (-(90)) 90 (snd lh))) b else b) /\
  halfway pts b /\ (forall k lo hi, nth_error b k = Some (lo, hi) -> (lo == edge pts k)%Q /\ (hi == edge pts (S k))%Q).
Proof.
  intros N. destruct (guess_edges lat pts N) as (b & E & L & H). exists b. split; auto. split; auto. unfold halfway. split; auto. split; auto. split; [|split].
  - intros k p q Hp Hq. assert (k < length pts /\ S k < length pts) as [A B] by (split; apply nth_error_Some; congruence).
    destruct (nth_error b k) as [[l1 h1]|] eqn:E1; [|apply nth_error_None in E1; lia]. destruct (nth_error b (S k)) as [[l2 h2]|] eqn:E2; [|apply nth_error_None in E2; lia].
    exists (l1, h1), (l2, h2). split; auto. split; auto. destruct (H _ _ _ E1) as [_ A1], (H _ _ _ E2) as [A2 _]. cbn [fst snd]. rewrite A1, A2. unfold edge, mid. rewrite (proj2 (Nat.ltb_lt _ _) B), (at_nth _ _ _ Hp), (at_nth _ _ _ Hq). split; reflexivity.
  - intros p q [lo hi] Hp Hq Hx. destruct (H _ _ _ Hx) as [A _]. cbn [fst]. unfold mid. rewrite A. unfold edge. rewrite (at_nth _ _ _ Hp), (at_nth _ _ _ Hq). field.
  - intros p q [lo hi] Hp Hq Hx. destruct (H _ _ _ Hx) as [_ A]. cbn [snd]. unfold mid. rewrite A. unfold edge. destruct (Nat.ltb_spec (S (length pts - 1)) (length pts)); [lia|]. replace (length pts - 1 - 1) with (length pts - 2) by lia. rewrite (at_nth _ _ _ Hp), (at_nth _ _ _ Hq). field.
Qed.
Lemma up_nth l i j : ordered_up l -> i < j -> j < length l -> (nth i l 0 < nth j l 0)%Q.
Proof. intros H A B. apply (H i j); auto; apply nth_error_nth'; lia. Qed.
Lemma down_nth l i j : ordered_down l -> i < j -> j < length l -> (nth j l 0 < nth i l 0)%Q.
Proof. intros H A B. apply (H i j); auto; apply nth_error_nth'; lia. Qed.
Lemma half_diff (a b : Q) : ((a < b -> a < (a + b) / 2 /\ (a + b) / 2 < b)%Q).
Proof. intros H. pose proof (half (a + b)%Q). split; lra. Qed.
Lemma edge_up pts k : ordered_up pts -> 2 <= length pts -> k < length pts -> (edge pts k < nth k pts 0 /\ nth k pts 0 < edge pts (S k))%Q.
Proof.
  intros U N K. split.
  - unfold edge. destruct k as [|k]; [pose proof (up_nth pts 0 1 U ltac:(lia) ltac:(lia)); pose proof (half (nth 1 pts 0 - nth 0 pts 0)%Q); lra|]. rewrite (proj2 (Nat.ltb_lt _ _) K). apply half_diff. apply up_nth; auto.
  - unfold edge. destruct (Nat.ltb_spec (S k) (length pts)) as [H|H]; [apply half_diff, up_nth; auto|]. pose proof (up_nth pts (k - 1) k U ltac:(lia) ltac:(lia)). pose proof (half (nth k pts 0 - nth (k - 1) pts 0)%Q). lra.
Qed.
Lemma edge_down pts k : ordered_down pts -> 2 <= length pts -> k < length pts -> (nth k pts 0 < edge pts k /\ edge pts (S k) < nth k pts 0)%Q.
Proof.
  intros U N K. split.
  - unfold edge. destruct k as [|k]; [pose proof (down_nth pts 0 1 U ltac:(lia) ltac:(lia)); pose proof (half (nth 1 pts 0 - nth 0 pts 0)%Q); lra|]. rewrite (proj2 (Nat.ltb_lt _ _) K).
    pose proof (down_nth pts k (S k) U ltac:(lia) ltac:(lia)). pose proof (half (nth k pts 0 + nth (S k) pts 0)%Q). lra.
  - unfold edge. destruct (Nat.ltb_spec (S k) (length pts)) as [H|H]; [pose proof (down_nth pts k (S k) U ltac:(lia) ltac:(lia)); pose proof (half (nth k pts 0 + nth (S k) pts 0)%Q); lra|].
    pose proof (down_nth pts (k - 1) k U ltac:(lia) ltac:(lia)). pose proof (half (nth k pts 0 - nth (k - 1) pts 0)%Q). lra.
Qed.
Lemma down_cells (b : list (Q * Q)) (g : nat -> Q) : (forall k, (k < length b)%nat -> (g (S k) < g k)%Q) -> (forall k lo hi, nth_error b k = Some (lo, hi) -> (lo == g k)%Q /\ (hi == g (S k))%Q) -> contiguous_down b.
Proof.
  revert g. induction b as [|[hi lo] b IH]; intros g M H; [exact I|]. cbn [contiguous_down]. destruct (H 0%nat hi lo eq_refl) as [A B]. split; [rewrite A, B; apply M; cbn; lia|]. split.
  - destruct b as [|[hi' lo'] b]; auto. destruct (H 1%nat hi' lo' eq_refl) as [A' _]. rewrite A', B. reflexivity.
  - apply (IH (fun k => g (S k))); [intros k Hk; apply (M (S k)); cbn; lia|]. intros k l h Hk. apply (H (S k)). auto.
Qed.
Lemma clip_mono x y : (x <= y -> clip (-(90)) 90 x <= clip (-(90)) 90 y)%Q.
Proof. intros H. unfold clip. destruct (Q.min_spec (Qmax x (-(90))) 90) as [[A D]|[A D]], (Q.max_spec x (-(90))) as [[B C]|[B C]], (Q.min_spec (Qmax y (-(90))) 90) as [[A' D']|[A' D']], (Q.max_spec y (-(90))) as [[B' C']|[B' C']]; lra. Qed.
Lemma clip_strict x p y : (-(90) <= p <= 90 -> x < p -> p < y -> clip (-(90)) 90 x < clip (-(90)) 90 y)%Q.
Proof. intros H X Y. unfold clip. destruct (Q.min_spec (Qmax x (-(90))) 90) as [[A D]|[A D]], (Q.max_spec x (-(90))) as [[B C]|[B C]], (Q.min_spec (Qmax y (-(90))) 90) as [[A' D']|[A' D']], (Q.max_spec y (-(90))) as [[B' C']|[B' C']]; lra. Qed.
Lemma clip_cut x : cut x (clip (-(90)) 90 x).
Proof.
  unfold cut. destruct (Qlt_le_dec x (-(90))) as [A|A]; [right; left; split; auto; apply clip_low; lra|]. destruct (Qlt_le_dec 90 x) as [B|B]; [right; right; split; auto; apply clip_high; lra|]. left. split; [lra|]. apply clip_id. lra.
Qed.
Lemma decreasing_up a : ordered_up (ax_points a) -> decreasing a = false.
Proof. intros U. unfold decreasing. destruct (ax_points a) as [|p [|q r]]; auto. apply Qltb_ge. specialize (U 0 1 p q ltac:(lia) eq_refl eq_refl). lra. Qed.
Lemma decreasing_down a : 2 <= length (ax_points a) -> ordered_down (ax_points a) -> decreasing a = true.
Proof. intros N U. unfold decreasing. destruct (ax_points a) as [|p [|q r]]; cbn in N; try lia. apply Qltb_lt. apply (U 0 1 p q); auto. Qed.
(** the cells of a dimension *)
Lemma cell_axis_spec s : good_dim s -> exists a, cell_axis s = Ok a /\ cells_of s a /\ good_axis a /\ (ordered_up (sd_points s) -> decreasing a = false).
Proof.
  unfold good_dim, cell_axis, cells_of. destruct (sd_bounds s) as [b|].
  - intros (NE & L & D). eexists. split; [reflexivity|]. cbn [ax_points ax_bounds]. split; auto. split; [|apply (decreasing_up (mkAx _ _))]. split; auto. split; auto. destruct D as [[U C]|(N & U & C)].
    + rewrite decreasing_up; auto.
    + rewrite decreasing_down; auto. cbn. lia.
  - intros (N & D). destruct (guess_halfway (std_eqb (sd_std s) (Some (lit "latitude"))) (sd_points s) N) as (b & E & H & EB). rewrite E. cbn [bind]. eexists. split; [reflexivity|]. cbn [ax_points ax_bounds].
    assert (LB : length b = length (sd_points s)) by apply H.
    assert (CL : std_eqb (sd_std s) (Some (lit "latitude")) && forallb (fun p => Qleb (-(90)) p && Qleb p 90) (sd_points s) = true <-> sd_std s = Some (lit "latitude") /\ Forall (fun p => (-(90) <= p <= 90)%Q) (sd_points s)).
    { rewrite andb_true_iff, std_eqb_eq, forallb_forall, Forall_forall. split; intros [A B]; split; auto; intros p Hp; specialize (B p Hp); [apply andb_true_iff in B; rewrite !Qleb_le in B; auto|apply andb_true_iff; rewrite !Qleb_le; auto]. }
    destruct (std_eqb (sd_std s) (Some (lit "latitude")) && forallb (fun p => Qleb (-(90)) p && Qleb p 90) (sd_points s)).
    + assert (C : sd_std s = Some (lit "latitude") /\ Forall (fun p => (-(90) <= p <= 90)%Q) (sd_points s)) by (apply CL; auto).
      split; [split; auto; exists b; split; auto; left; split; [tauto|]; split; [tauto|]; clear; induction b as [|x b IH]; constructor; auto; cbn [fst snd]; split; apply clip_cut|].
      split; [|apply (decreasing_up (mkAx _ _))].
      assert (IN : forall k, k < length (sd_points s) -> (-(90) <= nth k (sd_points s) 0 <= 90)%Q) by (intros k Hk; destruct C as [_ C]; rewrite Forall_forall in C; apply C, nth_In; auto).
      assert (G : forall k lo hi, nth_error (map (fun lh : Q * Q => (clip (-(90)) 90 (fst lh), clip (-(90)) 90 (snd lh))) b) k = Some (lo, hi) -> (lo == clip (-(90)) 90 (edge (sd_points s) k))%Q /\ (hi == clip (-(90)) 90 (edge (sd_points s) (S k)))%Q).
      { intros k lo hi Hk. rewrite nth_error_map in Hk. destruct (nth_error b k) as [[l h]|] eqn:Ek; [|discriminate]. injection Hk as <- <-. destruct (EB _ _ _ Ek) as [A B]. cbn [fst snd]. split; apply clip_proper; auto. }
      split; [destruct b; [cbn in LB; lia|discriminate]|]. split; [cbn [ax_points ax_bounds]; rewrite map_length; lia|]. destruct D as [U|U].
      * rewrite decreasing_up by auto. apply (up_cells _ (fun k => clip (-(90)) 90 (edge (sd_points s) k))); auto. cbn [ax_bounds]. rewrite map_length, LB. intros k Hk. destruct (edge_up (sd_points s) k U N Hk). eapply clip_strict; eauto.
      * rewrite decreasing_down by auto. apply (down_cells _ (fun k => clip (-(90)) 90 (edge (sd_points s) k))); auto. cbn [ax_bounds]. rewrite map_length, LB. intros k Hk. destruct (edge_down (sd_points s) k U N Hk). eapply clip_strict; eauto.
    + split; [split; auto; exists b; split; auto; right; split; auto; intros C; apply CL in C; discriminate|]. split; [|apply (decreasing_up (mkAx _ _))].
      split; [destruct b; [cbn in LB; lia|discriminate]|]. split; [cbn [ax_points ax_bounds]; lia|]. destruct D as [U|U].
      * rewrite decreasing_up by auto. apply (up_cells _ (edge (sd_points s))); auto. cbn [ax_bounds]. rewrite LB. intros k Hk. destruct (edge_up (sd_points s) k U N Hk). lra.
      * rewrite decreasing_down by auto. apply (down_cells _ (edge (sd_points s))); auto. cbn [ax_bounds]. rewrite LB. intros k Hk. destruct (edge_down (sd_points s) k U N Hk). lra.
Qed.
