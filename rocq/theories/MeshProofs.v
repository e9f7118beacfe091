(** Proofs for C77. *)
From Coq Require Import QArith Qabs.
From Verif Require Import Base QBase MeshModel MeshSpec.
Open Scope nat_scope.

(** ** Matrices *)
Lemma rect_row : forall {A} r c (m : list (list A)) i, rectangle r c m -> i < r -> exists row, nth_error m i = Some row /\ length row = c.
Proof.
  intros A r c m i [L F] I. destruct (nth_error m i) as [row|] eqn:E; [|apply nth_error_None in E; lia]. exists row. split; [reflexivity|]. rewrite Forall_forall in F. apply F. exact (nth_error_In m i E).
Qed.
Lemma glue_len : forall {A} (r : list A) m, length r = length m -> length (glue r m) = length m.
Proof. induction r as [|x r IH]; intros [|l m] E; cbn in *; try lia. rewrite IH; lia. Qed.
Lemma glue_rows : forall {A} (r : list A) m k, Forall (fun row => length row = k) m -> Forall (fun row => length row = S k) (glue r m).
Proof. induction r as [|x r IH]; intros [|l m] k F; cbn; try constructor; inversion F; subst; cbn; auto. Qed.
Lemma transposed_rect : forall {A} c r (m : list (list A)), rectangle r c m -> rectangle c r (transposed c m).
Proof.
  intros A c r m [L F]. revert r L. induction F as [|row m H F IH]; intros r L; cbn in *.
  - subst r. split; [apply repeat_length|]. induction c; constructor; auto.
  - destruct r as [|r]; [lia|]. injection L as L. destruct (IH r L) as [L' F']. split; [rewrite glue_len; lia|]. apply glue_rows. exact F'.
Qed.
Lemma glue_cell : forall {A} (r : list A) m q p, length r = length m -> cell (glue r m) q (S p) = cell m q p.
Proof. unfold cell. induction r as [|x r IH]; intros [|l m] q p E; cbn in *; try lia; [destruct q; reflexivity|]. destruct q as [|q]; cbn; [reflexivity|]. apply IH. lia. Qed.
Lemma glue_cell0 : forall {A} (r : list A) m q, length r = length m -> cell (glue r m) q 0 = nth_error r q.
Proof. unfold cell. induction r as [|x r IH]; intros [|l m] q E; cbn in *; try lia; [destruct q; reflexivity|]. destruct q as [|q]; cbn; [reflexivity|]. apply IH. lia. Qed.
Lemma transposed_cell : forall {A} c r (m : list (list A)), rectangle r c m -> forall p q, q < c -> cell (transposed c m) q p = cell m p q.
Proof.
  intros A c r m [L F]. revert r L. induction F as [|row m H F IH]; intros r L p q I; cbn [transposed].
  - unfold cell. cbn. destruct (nth_error (repeat [] c) q) as [x|] eqn:E; [|destruct p; reflexivity]. apply nth_error_In, repeat_spec in E. subst. destruct p; reflexivity.
  - destruct (transposed_rect c (length m) m (conj eq_refl F)) as [LT _].
    destruct p as [|p]; [rewrite glue_cell0 by lia; reflexivity|]. rewrite glue_cell by lia. cbn in L. rewrite (IH (pred r)) by lia. reflexivity.
Qed.
Lemma nth_repeat : forall {A} (x : A) n i, i < n -> nth_error (repeat x n) i = Some x.
Proof. induction n as [|n IH]; intros [|i] I; cbn; try lia; [reflexivity|]. apply IH. lia. Qed.
Lemma mesh_rect : forall l k, rectangle (length k) (length l) (fst (meshgrid l k)) /\ rectangle (length k) (length l) (snd (meshgrid l k)).
Proof.
  intros l k. unfold meshgrid, rectangle. cbn. rewrite !map_length. repeat split; apply Forall_forall; intros row I; apply in_map_iff in I; destruct I as (b & <- & _); [reflexivity|apply repeat_length].
Qed.
Lemma mesh_cell : forall l k i j, i < length k -> j < length l -> cell (fst (meshgrid l k)) i j = nth_error l j /\ cell (snd (meshgrid l k)) i j = nth_error k i.
Proof.
  intros l k i j I J. unfold cell, meshgrid. cbn. destruct (nth_error k i) as [b|] eqn:E; [|apply nth_error_None in E; lia].
  rewrite (map_nth_error (fun _ => l) i k E), (map_nth_error (fun b => repeat b (length l)) i k E). split; [reflexivity|]. apply nth_repeat. exact J.
Qed.

(** ** The cyclic point *)
Lemma diffs_at : forall l k d, nth_error (diffs l) k = Some d <-> exists a b, nth_error l k = Some a /\ nth_error l (S k) = Some b /\ d = (b - a)%Q.
Proof.
  induction l as [|a l IH]; intros k d; [cbn; split; [destruct k; discriminate|intros (x & y & E & _); destruct k; discriminate]|].
  destruct l as [|b l].
  - cbn. split; [destruct k; discriminate|]. intros (x & y & _ & E & _). destruct k; discriminate.
  - change (diffs (a :: b :: l)) with ((b - a)%Q :: diffs (b :: l)). destruct k as [|k]; cbn [nth_error].
    + split; [intros [= <-]; eauto|]. intros (x & y & [= <-] & E & ->). cbn in E. injection E as <-. reflexivity.
    + rewrite IH. reflexivity.
Qed.
Lemma isclose_iff : forall a b, isclose a b = true <-> (Qabs (a - b) <= (1 # 100000000) + (1 # 100000) * Qabs b)%Q.
Proof. intros a b. unfold isclose, Qleb. apply Qle_bool_iff. Qed.
Lemma even_iff : forall l d ds, diffs l = d :: ds -> (forallb (fun e => isclose e d) (d :: ds) = true <-> nearly_even l).
Proof.
  intros l d ds E. rewrite forallb_forall. assert (D0 : nth_error (diffs l) 0 = Some d) by (rewrite E; reflexivity). apply diffs_at in D0. destruct D0 as (a0 & b0 & A0 & B0 & ->). rewrite <- E. split.
  - intros H. exists a0, b0. split; [exact A0|]. split; [exact B0|]. intros k a b Ea Eb. apply isclose_iff. apply H. apply (nth_error_In (diffs l) k). apply diffs_at. eauto.
  - intros (a1 & b1 & A1 & B1 & H) e I. rewrite A0 in A1. injection A1 as <-. rewrite B0 in B1. injection B1 as <-. apply isclose_iff. apply In_nth_error in I. destruct I as [k K]. apply diffs_at in K. destruct K as (a & b & Ea & Eb & ->). exact (H k a b Ea Eb).
Qed.
Lemma last_nth : forall (l : list Q) z, l <> [] -> nth_error l (length l - 1) = Some (last l z).
Proof.
  induction l as [|a l IH]; intros z N; [contradiction|]. destruct l as [|b l]; [reflexivity|]. replace (length (a :: b :: l) - 1) with (S (length (b :: l) - 1)) by (cbn; lia).
  change (last (a :: b :: l) z) with (last (b :: l) z). cbn [nth_error]. apply IH. discriminate.
Qed.
Section Cyclic.
Context {V : Type}.
Variables (r c : nat) (data : list (list V)).
Hypothesis RD : rectangle r c data.
(** the result: the axis as it is, or with one more point *)
Lemma cyclic_ok : forall l, length l = c -> 2 <= c ->
  (nearly_even l /\ exists a0 b0 z, nth_error l 0 = Some a0 /\ nth_error l 1 = Some b0 /\ nth_error l (c - 1) = Some z /\
     add_cyclic_point data c (A1 l) = Ok (map (fun row => row ++ firstn 1 row) data, l ++ [z + (b0 - a0)]%Q)) \/
  (~ nearly_even l /\ add_cyclic_point data c (A1 l) = Raises ValueError).
Proof.
  intros l L C2. unfold add_cyclic_point. rewrite L, Nat.eqb_refl. cbn [negb]. destruct (diffs l) as [|d ds] eqn:E.
  - exfalso. destruct l as [|a [|b l]]; cbn in L; try lia. discriminate.
  - destruct (forallb (fun e => isclose e d) (d :: ds)) eqn:F.
    + left. split; [apply (even_iff l d ds E); exact F|]. assert (D0 : nth_error (diffs l) 0 = Some d) by (rewrite E; reflexivity). apply diffs_at in D0. destruct D0 as (a0 & b0 & A0 & B0 & ->).
      exists a0, b0, (last l 0%Q). split; [exact A0|]. split; [exact B0|]. split; [|reflexivity]. rewrite <- L. apply last_nth. intros ->. cbn in L. lia.
    + right. split; [|reflexivity]. intros N. apply (even_iff l d ds E) in N. congruence.
Qed.
Lemma cyclic_rect : rectangle r (c + 1) (map (fun row => row ++ firstn 1 row) data) \/ c = 0.
Proof.
  destruct c as [|k]; [right; reflexivity|left]. destruct RD as [L F]. split; [rewrite map_length; exact L|]. apply Forall_forall. intros row I. apply in_map_iff in I. destruct I as (x & <- & I). rewrite Forall_forall in F. apply F in I. rewrite app_length, I. destruct x; cbn in *; lia.
Qed.
Lemma cyclic_cell : forall i j, j < c -> cell (map (fun row => row ++ firstn 1 row) data) i j = cell data i j.
Proof.
  intros i j J. unfold cell. rewrite nth_error_map. destruct (nth_error data i) as [row|] eqn:E; cbn; [|reflexivity]. apply nth_error_app1. destruct RD as [L F]. rewrite Forall_forall in F. rewrite (F row (nth_error_In data i E)). exact J.
Qed.
Lemma cyclic_last : forall i, 0 < c -> cell (map (fun row => row ++ firstn 1 row) data) i c = cell data i 0.
Proof.
  intros i C. unfold cell. rewrite nth_error_map. destruct (nth_error data i) as [row|] eqn:E; cbn; [|reflexivity]. destruct RD as [L F]. rewrite Forall_forall in F. pose proof (F row (nth_error_In data i E)) as LR.
  rewrite nth_error_app2, LR, Nat.sub_diag by lia. destruct row; [cbn in LR; lia|reflexivity].
Qed.
(** the arrays drawn for an axis [l] across and an axis [k] down *)
Lemma across_down : forall (l k : list Q), length l = c -> length k = r -> 2 <= c -> exists extra D l', extra <= 1 /\ (extra = 1 <-> nearly_even l) /\ length l' = c + extra /\ rectangle r (c + extra) D /\
  (match add_cyclic_point data c (A1 l) with Ok (data, l) => Ok (data, l) | Raises ValueError => Ok (data, l) | Raises e => Raises e end = Ok (D, l')) /\
  (forall i j, j < c -> cell D i j = cell data i j) /\ (forall j, j < c -> nth_error l' j = nth_error l j) /\
  (extra = 1 -> exists a0 b0 z, nth_error l 0 = Some a0 /\ nth_error l 1 = Some b0 /\ nth_error l (c - 1) = Some z /\ nth_error l' c = Some (z + (b0 - a0))%Q /\ forall i, cell D i c = cell D i 0).
Proof.
  intros l k Ll Lk C2. destruct (cyclic_ok l Ll C2) as [[N (a0 & b0 & z & A0 & B0 & Z & E)]|[N E]].
  - exists 1, (map (fun row => row ++ firstn 1 row) data), (l ++ [z + (b0 - a0)]%Q). split; [lia|]. split; [tauto|]. split; [rewrite app_length; cbn; lia|].
    split; [destruct cyclic_rect; [assumption|lia]|]. split; [rewrite E; reflexivity|]. split; [intros i j J; apply cyclic_cell; exact J|]. split; [intros j J; apply nth_error_app1; lia|].
    intros _. exists a0, b0, z. do 3 (split; [assumption|]). split; [rewrite nth_error_app2, Ll, Nat.sub_diag by lia; reflexivity|]. intros i. rewrite cyclic_last by lia. rewrite cyclic_cell by lia. reflexivity.
  - exists 0, data, l. split; [lia|]. split; [split; [lia|intros; contradiction]|]. split; [lia|]. rewrite Nat.add_0_r. split; [exact RD|]. split; [rewrite E; reflexivity|]. split; [reflexivity|]. split; [reflexivity|]. intros; lia.
Qed.
End Cyclic.

(** ** Two one-dimensional axes, before the plot is turned *)
Section Core.
Context {V : Type}.
Variables (r c : nat) (data : list (list V)).
Hypothesis RD : rectangle r c data.
Hypothesis C2 : 2 <= c.
Lemma core_across : forall aux lx ly, length lx = c -> length ly = r -> exists D mx my extra, cube_manipulation false aux r c data (A1 lx) (A1 ly) = Ok (D, A2 mx, A2 my) /\ extra <= 1 /\ (extra = 1 <-> nearly_even lx) /\
  draws false r c data lx Across ly Down extra D mx my /\ (extra = 1 -> repeats_first r c lx D mx my).
Proof.
  intros aux lx ly Lx Ly. unfold cube_manipulation. cbn [shape_is orb]. rewrite andb_false_r. cbn [axis_len flat]. rewrite Lx, Nat.eqb_refl.
  destruct (across_down r c data RD lx ly Lx Ly C2) as (extra & D & l' & E1 & EV & Ll & RDD & EQ & CD & CL & EX).
  exists D, (fst (meshgrid l' ly)), (snd (meshgrid l' ly)), extra. destruct (mesh_rect l' ly) as [R1 R2]. rewrite Ly, Ll in R1, R2.
  split; [|split; [exact E1|split; [exact EV|split]]].
  - destruct (add_cyclic_point data c (A1 lx)) as [[D0 l0]|e]; [injection EQ as -> ->; reflexivity|]. destruct e; try discriminate. injection EQ as -> ->. reflexivity.
  - split; [exact RDD|]. split; [exact R1|]. split; [exact R2|]. intros p q P Q. cbn [place index]. destruct (mesh_cell l' ly p q) as [M1 M2]; [lia|lia|]. rewrite M1, M2. split; [apply CD; exact Q|]. split; [apply CL; exact Q|reflexivity].
  - intros X. destruct (EX X) as (a0 & b0 & z & A0 & B0 & Z & L' & DC). exists a0, b0, z. do 3 (split; [assumption|]). intros i I. split; [apply DC|]. destruct (mesh_cell l' ly i c) as [M1 M2]; [lia|lia|]. destruct (mesh_cell l' ly i 0) as [M3 M4]; [lia|lia|]. rewrite M1, M2, M4. auto.
Qed.
Lemma core_down : forall aux lx ly, length lx = r -> length ly = c -> r <> c -> exists D mx my extra, cube_manipulation false aux r c data (A1 lx) (A1 ly) = Ok (D, A2 mx, A2 my) /\ extra <= 1 /\ (extra = 1 <-> nearly_even ly) /\
  draws false r c data lx Down ly Across extra D mx my /\ (extra = 1 -> repeats_first r c ly D my mx).
Proof.
  intros aux lx ly Lx Ly N. unfold cube_manipulation. cbn [shape_is orb]. rewrite andb_false_r. cbn [axis_len flat]. rewrite Lx, Ly, Nat.eqb_refl. replace (r =? c) with false by (symmetry; apply Nat.eqb_neq; exact N).
  destruct (across_down r c data RD ly lx Ly Lx C2) as (extra & D & l' & E1 & EV & Ll & RDD & EQ & CD & CL & EX).
  exists D, (snd (meshgrid l' lx)), (fst (meshgrid l' lx)), extra. destruct (mesh_rect l' lx) as [R1 R2]. rewrite Lx, Ll in R1, R2.
  split; [|split; [exact E1|split; [exact EV|split]]].
  - destruct (add_cyclic_point data c (A1 ly)) as [[D0 l0]|e]; [injection EQ as -> ->; reflexivity|]. destruct e; try discriminate. injection EQ as -> ->. reflexivity.
  - split; [exact RDD|]. split; [exact R2|]. split; [exact R1|]. intros p q P Q. cbn [place index]. destruct (mesh_cell l' lx p q) as [M1 M2]; [lia|lia|]. rewrite M1, M2. split; [apply CD; exact Q|]. split; [reflexivity|apply CL; exact Q].
  - intros X. destruct (EX X) as (a0 & b0 & z & A0 & B0 & Z & L' & DC). exists a0, b0, z. do 3 (split; [assumption|]). intros i I. split; [apply DC|]. destruct (mesh_cell l' lx i c) as [M1 M2]; [lia|lia|]. destruct (mesh_cell l' lx i 0) as [M3 M4]; [lia|lia|]. rewrite M1, M2, M4. auto.
Qed.
End Core.
