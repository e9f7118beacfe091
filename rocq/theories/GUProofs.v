(** Proofs for C69, part 1: the longitude axis after the rotation. *)
From Coq Require Import String.
From Verif Require Import Base PyStr QBase LonModel LonSpec LonProofs DateModel UngrModel UngrSpec InterpModel InterpSpec InterpProofs Interp2Proofs GUModel GUSpec.
From Coq Require Import List Lia Lqa Arith QArith Qabs.
Import ListNotations.
Open Scope string_scope. Open Scope list_scope. Open Scope nat_scope. Notation length := List.length.

Lemma nth_skipn' {A} (l : list A) i j d : nth j (skipn i l) d = nth (i + j) l d.
Proof. revert i. induction l as [|x l IH]; intros [|i]; cbn; auto. destruct j; reflexivity. Qed.
Lemma nth_firstn' {A} (l : list A) i j d : j < i -> nth j (firstn i l) d = nth j l d.
Proof. revert i j. induction l as [|x l IH]; intros [|i] [|j] H; cbn; auto; try lia. apply IH. lia. Qed.
Lemma mod_wrap j i n : i < n -> j < n -> (j + i) mod n = if n - i <=? j then j + i - n else j + i.
Proof.
  intros Hi Hj. destruct (Nat.leb_spec (n - i) j).
  - replace (j + i) with ((j + i - n) + 1 * n) at 1 by lia. rewrite Nat.mod_add by lia. apply Nat.mod_small. lia.
  - apply Nat.mod_small. lia.
Qed.
Lemma nth_rolled {A} (l : list A) i j d : i < length l -> j < length l -> nth j (skipn i l ++ firstn i l) d = nth ((j + i) mod length l) l d.
Proof.
  intros Hi Hj. rewrite mod_wrap by auto. destruct (Nat.leb_spec (length l - i) j).
  - rewrite app_nth2 by (rewrite skipn_length; lia). rewrite skipn_length, nth_firstn' by lia. f_equal. lia.
  - rewrite app_nth1 by (rewrite skipn_length; lia). rewrite nth_skipn'. f_equal. lia.
Qed.
Lemma nth_add_where (p : Q -> bool) d l j : j < length l -> nth j (add_where (map p l) d l) 0%Q = if p (nth j l 0%Q) then (nth j l 0 + d)%Q else nth j l 0%Q.
Proof. unfold add_where. revert j. induction l as [|x l IH]; intros j H; cbn in *; [lia|]. destruct j; cbn; auto. apply IH. lia. Qed.
Definition turns (k : Z) (n i j : nat) : Q := (360 * inject_Z (k + (if n - i <=? j then 1 else 0)))%Q.
Lemma turns_cases k n i j : (n - i <= j /\ (turns k n i j == 360 * inject_Z k + 360)%Q) \/ (j < n - i /\ (turns k n i j == 360 * inject_Z k)%Q).
Proof.
  unfold turns. destruct (Nat.leb_spec (n - i) j) as [H|H]; [left|right]; (split; [exact H|]); rewrite inject_Z_plus.
  - change (inject_Z 1) with 1%Q. ring.
  - change (inject_Z 0) with 0%Q. ring.
Qed.
Definition rotated_axis (P P' : list Q) (cols : list nat) (i : nat) (k : Z) : Prop :=
  i < length P /\ length P' = length P /\ length cols = length P /\
  forall j, j < length P -> nth j cols 0 = (j + i) mod length P /\ (nth j P' 0 == nth ((j + i) mod length P) P 0 + turns k (length P) i j)%Q.
Lemma rotation P low : increasing P -> P <> [] -> let ax := set_longitude_range (mkAxis P None (seq 0 (length P))) low in
  exists i k, rotated_axis P (lon_points ax) (lon_columns ax) i k.
Proof.
  intros HI HN. assert (L0 : 0 < length P) by (destruct P; [congruence|cbn; lia]). unfold set_longitude_range. cbn [lon_points lon_bounds lon_columns].
  set (i1 := searchsorted_left P low). set (i2 := searchsorted_left P (low + 360)).
  assert (NTH : forall i j, i < length P -> j < length P -> nth j (skipn i (seq 0 (length P)) ++ firstn i (seq 0 (length P))) 0 = (j + i) mod length P).
  { intros i j Hi Hj. pose proof (nth_rolled (seq 0 (length P)) i j 0) as E. rewrite seq_length in E. rewrite E by auto. rewrite seq_nth; [lia|]. apply Nat.mod_upper_bound. lia. }
  destruct ((0 <? i1) && (i1 <? length P)) eqn:C1; [|destruct ((0 <? i2) && (i2 <? length P)) eqn:C2].
  - apply andb_true_iff in C1. destruct C1 as [A B]. apply Nat.ltb_lt in A, B. exists i1, 0%Z. rewrite !roll_neg by (rewrite ?seq_length; lia). cbn [lon_points lon_columns].
    assert (LR : length (skipn i1 P ++ firstn i1 P) = length P) by (rewrite app_length, skipn_length, firstn_length; lia).
    split; auto. split; [rewrite add_where_length; rewrite ?map_length; auto|]. split; [rewrite app_length, skipn_length, firstn_length, seq_length; lia|].
    intros j Hj. split; [apply NTH; auto|]. rewrite nth_add_where by lia. rewrite nth_rolled by auto. pose proof (mod_wrap j i1 (length P) B Hj) as M.
    set (jj := (j + i1) mod length P) in *. destruct (turns_cases 0 (length P) i1 j) as [[T E]|[T E]].
    + rewrite (proj2 (Qltb_lt _ _)); [rewrite E; change (inject_Z 0) with 0%Q; ring|]. apply increasing_nth; auto. destruct (Nat.leb_spec (length P - i1) j); lia.
    + destruct (Qltb_spec (nth jj P 0) (nth i1 P 0))%Q as [L|L]; [|rewrite E; change (inject_Z 0) with 0%Q; ring]. exfalso.
      assert (nth i1 P 0 <= nth jj P 0)%Q by (apply increasing_nth_le; auto; destruct (Nat.leb_spec (length P - i1) j); lia). lra.
  - apply andb_true_iff in C2. destruct C2 as [A B]. apply Nat.ltb_lt in A, B. exists i2, (-1)%Z. rewrite (roll_pos P) by lia.
    replace (Z.of_nat (length P) - Z.of_nat i2)%Z with (Z.of_nat (length (seq 0 (length P))) - Z.of_nat i2)%Z by (rewrite seq_length; auto). rewrite (roll_pos (seq 0 (length P))) by (rewrite seq_length; lia). cbn [lon_points lon_columns].
    assert (LR : length (skipn i2 P ++ firstn i2 P) = length P) by (rewrite app_length, skipn_length, firstn_length; lia).
    split; auto. split; [rewrite add_where_length; rewrite ?map_length; auto|]. split; [rewrite app_length, skipn_length, firstn_length, seq_length; lia|].
    intros j Hj. split; [apply NTH; auto|]. rewrite (nth_add_where (fun x => Qleb (nth i2 P 0%Q) x)) by lia. rewrite nth_rolled by auto. pose proof (mod_wrap j i2 (length P) B Hj) as M.
    set (jj := (j + i2) mod length P) in *. destruct (turns_cases (-1) (length P) i2 j) as [[T E]|[T E]].
    + replace (Qleb (nth i2 P 0) (nth jj P 0))%Q with false; [rewrite E; change (inject_Z (-1)) with (-(1))%Q; ring|]. symmetry. apply Qleb_gt. apply increasing_nth; auto. destruct (Nat.leb_spec (length P - i2) j); lia.
    + rewrite (proj2 (Qleb_le _ _)); [rewrite E; change (inject_Z (-1)) with (-(1))%Q; ring|]. apply increasing_nth_le; auto; destruct (Nat.leb_spec (length P - i2) j); lia.
  - exists 0, 0%Z. cbn [lon_points lon_columns]. split; auto. split; auto. split; [apply seq_length|]. intros j Hj. rewrite Nat.add_0_r, Nat.mod_small by auto. split; [rewrite seq_nth; auto|].
    unfold turns. destruct (Nat.leb_spec (length P - 0) j); [lia|]. change (0 + 0)%Z with 0%Z. change (inject_Z 0) with 0%Q. ring.
Qed.
Lemma unrotated {A} P (cols : list A) low : increasing P -> Forall (in_range low) P -> set_longitude_range (mkAxis P None cols) low = mkAxis P None cols.
Proof.
  intros HI HF. unfold set_longitude_range. cbn [lon_points]. rewrite Forall_forall in HF.
  assert (E1 : searchsorted_left P low = 0). { destruct P as [|x P]; auto. cbn. replace (Qltb x low) with false; auto. symmetry. apply Qltb_ge. apply HF. left. auto. }
  assert (E2 : searchsorted_left P (low + 360) = length P).
  { clear E1 HI. induction P as [|x P IH]; auto. cbn. rewrite (proj2 (Qltb_lt _ _)); [|apply HF; left; auto]. rewrite IH; auto. intros y Hy. apply HF. right. auto. }
  rewrite E1, E2. change (0 <? 0) with false. cbn [andb]. rewrite Nat.ltb_irrefl, andb_false_r. reflexivity.
Qed.
(** the index of the column where the axis is continued *)
Definition back (d : dim) (k : nat) : nat := if d_circular d && (k =? length (d_points d)) then 0 else k.
Lemma wrapped_back d dims k e : wrapped (d :: dims) (k :: e) = back d k :: wrapped dims e. Proof. reflexivity. Qed.

(** ** a cell of the rotated axis is a cell of the axis *)
Definition cell_transfer (d d' : dim) (phi : nat -> nat) (c' c : nat) (t' t : Q) : Prop :=
  encloses (continued d) c t /\
  (nth (S c) (continued d) 0 - t == nth (S c') (continued d') 0 - t')%Q /\ (t - nth c (continued d) 0 == t' - nth c' (continued d') 0)%Q /\
  back d c = phi (back d' c') /\ back d (S c) = phi (back d' (S c')).
Lemma nth_continued P k : nth k (P ++ [hd 0 P + 360])%Q 0%Q = if k <? length P then nth k P 0%Q else if k =? length P then (nth 0 P 0 + 360)%Q else 0%Q.
Proof.
  destruct (Nat.ltb_spec k (length P)); [apply app_nth1; auto|]. rewrite app_nth2 by auto. destruct (Nat.eqb_spec k (length P)) as [->|]; [rewrite Nat.sub_diag; cbn; rewrite hd_nth; reflexivity|].
  destruct (k - length P) as [|[|]] eqn:E; auto; lia.
Qed.
Lemma circular_cell P P' cols i k c' t' : rotated_axis P P' cols i k -> encloses (P' ++ [hd 0 P' + 360])%Q c' t' ->
  let d := mkDim P true in let d' := mkDim P' true in
  exists c, cell_transfer d d' (fun j => nth j cols 0) c' c t' (t' - turns k (length P) i c')%Q.
Proof.
  intros (Hi & L' & LC & R) [Hc E]. rewrite app_length in Hc. cbn [length] in Hc. rewrite L' in Hc. assert (Hc' : c' < length P) by lia. intros d d'.
  set (n := length P) in *. exists ((c' + i) mod n). unfold cell_transfer, encloses, continued, back. cbn [d d' d_circular d_points andb]. fold n. rewrite L'. fold n.
  rewrite app_length. cbn [length]. fold n. rewrite !nth_continued in *. fold n. rewrite L' in E. rewrite L'. fold n in E. fold n.
  pose proof (mod_wrap c' i n Hi Hc') as M. destruct (R c' Hc') as [C0 R0]. rewrite (proj2 (Nat.ltb_lt c' n) Hc') in *.
  assert (MB : (c' + i) mod n < n) by (apply Nat.mod_upper_bound; lia). rewrite (proj2 (Nat.ltb_lt _ _) MB).
  replace ((c' + i) mod n =? n) with false by (symmetry; apply Nat.eqb_neq; lia). replace (c' =? n) with false by (symmetry; apply Nat.eqb_neq; lia). rewrite C0.
  assert (HI : ((if S ((c' + i) mod n) <? n then nth (S ((c' + i) mod n)) P 0 else if S ((c' + i) mod n) =? n then nth 0 P 0 + 360 else 0) + turns k n i c' ==
     (if S c' <? n then nth (S c') P' 0 else if S c' =? n then nth 0 P' 0 + 360 else 0))%Q /\
     (if S ((c' + i) mod n) =? n then 0 else S ((c' + i) mod n)) = nth (if S c' =? n then 0 else S c') cols 0).
  { destruct (Nat.ltb_spec (S c') n) as [B|B].
    - replace (S c' =? n) with false by (symmetry; apply Nat.eqb_neq; lia). destruct (R (S c') B) as [C1 R1]. rewrite C1. rewrite R1. rewrite (mod_wrap (S c') i n Hi B).
      destruct (turns_cases k n i c') as [[T0 E0]|[T0 E0]]; destruct (turns_cases k n i (S c')) as [[T1 E1]|[T1 E1]]; try lia; rewrite M; destruct (Nat.leb_spec (n - i) c'); try lia; destruct (Nat.leb_spec (n - i) (S c')); try lia.
      + replace (S (c' + i - n) <? n) with true by (symmetry; apply Nat.ltb_lt; lia). replace (S (c' + i - n) =? n) with false by (symmetry; apply Nat.eqb_neq; lia). replace (S c' + i - n) with (S (c' + i - n)) by lia. split; [rewrite E0, E1; reflexivity|lia].
      + replace (S (c' + i) <? n) with false by (symmetry; apply Nat.ltb_ge; lia). replace (S (c' + i) =? n) with true by (symmetry; apply Nat.eqb_eq; lia). replace (S c' + i - n) with 0 by lia. split; [rewrite E0, E1; ring|lia].
      + replace (S (c' + i) <? n) with true by (symmetry; apply Nat.ltb_lt; lia). replace (S (c' + i) =? n) with false by (symmetry; apply Nat.eqb_neq; lia). split; [rewrite E0, E1; reflexivity|lia].
    - replace (S c' =? n) with true by (symmetry; apply Nat.eqb_eq; lia). destruct (R 0 ltac:(lia)) as [C1 R1]. rewrite C1, R1. cbn [Nat.add]. rewrite (Nat.mod_small i n) by auto.
      destruct (turns_cases k n i c') as [[T0 E0]|[T0 E0]]; destruct (turns_cases k n i 0) as [[T1 E1]|[T1 E1]]; try lia; rewrite M; destruct (Nat.leb_spec (n - i) c'); try lia.
      + replace (S (c' + i - n) <? n) with true by (symmetry; apply Nat.ltb_lt; lia). replace (S (c' + i - n) =? n) with false by (symmetry; apply Nat.eqb_neq; lia). replace (S (c' + i - n)) with i by lia. split; [rewrite E0, E1; ring|lia].
      + replace (S (c' + i) <? n) with false by (symmetry; apply Nat.ltb_ge; lia). replace (S (c' + i) =? n) with true by (symmetry; apply Nat.eqb_eq; lia). assert (i = 0) by lia. subst i. split; [rewrite E0, E1; ring|lia]. }
  destruct HI as [H1 H2]. assert (H0 : (nth ((c' + i) mod n) P 0 + turns k n i c' == nth c' P' 0)%Q) by (rewrite R0; reflexivity).
  split; [split; [lia|]|split; [|split; [|split; [reflexivity|exact H2]]]].
  all: lra.
Qed.
