(** Proofs for C77: the plot turned, hybrid coordinates and bounds. *)
From Coq Require Import QArith Qabs.
From Verif Require Import Base QBase MeshModel MeshSpec MeshProofs.
Open Scope nat_scope.

Section Turned.
Context {V : Type}.
Variables (tr aux : bool) (r c : nat) (data : list (list V)).
Hypothesis RD : rectangle r c data.
Lemma turned : forall lx ly, cube_manipulation true aux r c data (A1 lx) (A1 ly) = cube_manipulation false aux c r (transposed c data) (A1 lx) (A1 ly).
Proof. reflexivity. Qed.
Lemma draws_turned : forall lx dx ly dy extra D mx my, draws false c r (transposed c data) lx (flip true dx) ly (flip true dy) extra D mx my -> draws true r c data lx dx ly dy extra D mx my.
Proof.
  intros lx dx ly dy extra D mx my (R1 & R2 & R3 & H). split; [exact R1|]. split; [exact R2|]. split; [exact R3|]. intros p q P Q. specialize (H q p Q P). cbn [place] in *. destruct H as (H1 & H2 & H3).
  rewrite H1, H2, H3. split; [exact (transposed_cell c r data RD p q Q)|]. destruct dx, dy; auto.
Qed.
Lemma points_ok : forall lx dx ly dy, 2 <= columns tr r c -> dx <> dy -> length lx = extent dx r c -> length ly = extent dy r c -> flip tr dx = Across \/ r <> c ->
  exists D mx my extra, cube_manipulation tr aux r c data (A1 lx) (A1 ly) = Ok (D, A2 mx, A2 my) /\ extra <= 1 /\ (extra = 1 <-> nearly_even (across tr dx lx ly)) /\ draws tr r c data lx dx ly dy extra D mx my /\
    (extra = 1 -> let '(along, other) := oriented tr dx mx my in repeats_first (rows tr r c) (columns tr r c) (across tr dx lx ly) D along other).
Proof.
  intros lx dx ly dy C2 N Lx Ly U. unfold columns, rows, across, oriented in *. destruct tr; cbn [place fst snd] in *.
  - pose proof (transposed_rect c r data RD) as RT. destruct dx, dy; try contradiction; cbn [extent flip] in *.
    + destruct (core_across c r (transposed c data) RT C2 aux lx ly Lx Ly) as (D & mx & my & extra & E & E1 & EV & DR & RF). exists D, mx, my, extra. split; [rewrite turned; exact E|]. split; [exact E1|]. split; [exact EV|]. split; [|exact RF]. apply draws_turned. exact DR.
    + destruct U as [U|U]; [discriminate|]. destruct (core_down c r (transposed c data) RT C2 aux lx ly Lx Ly ltac:(lia)) as (D & mx & my & extra & E & E1 & EV & DR & RF). exists D, mx, my, extra. split; [rewrite turned; exact E|]. split; [exact E1|]. split; [exact EV|]. split; [|exact RF]. apply draws_turned. exact DR.
  - destruct dx, dy; try contradiction; cbn [extent flip] in *.
    + destruct U as [U|U]; [discriminate|]. destruct (core_down r c data RD C2 aux lx ly Lx Ly U) as (D & mx & my & extra & E). exists D, mx, my, extra. exact E.
    + destruct (core_across r c data RD C2 aux lx ly Lx Ly) as (D & mx & my & extra & E). exists D, mx, my, extra. exact E.
Qed.
End Turned.

(** ** Hybrid coordinates *)
Lemma shape_is_rect : forall r c m, 0 < r -> rectangle r c m -> shape_is r c (A2 m) = true.
Proof. intros r c m P [L F]. cbn. rewrite L, Nat.eqb_refl. destruct m as [|row m]; [cbn in L; lia|]. cbn. inversion F; subst. apply Nat.eqb_refl. Qed.
Lemma repeat_rect : forall {A} (l : list A) n, rectangle n (length l) (repeat l n).
Proof. intros A l n. split; [apply repeat_length|]. apply Forall_forall. intros row I. apply repeat_spec in I. subst. reflexivity. Qed.
Lemma repeat_cell : forall {A} (l : list A) n i j, i < n -> cell (repeat l n) i j = nth_error l j.
Proof. intros A l n i j I. unfold cell. rewrite (nth_repeat l n i I). reflexivity. Qed.
Lemma transpose_rect : forall {A} r c (m : list (list A)), 0 < r -> rectangle r c m -> transpose m = transposed c m.
Proof. intros A r c m P [L F]. unfold transpose. destruct m as [|row m]; [cbn in L; lia|]. cbn [ncols]. inversion F; subst. reflexivity. Qed.
Section Hybrid.
Context {V : Type}.
Variables (r c : nat) (data : list (list V)).
Hypothesis RD : rectangle r c data.
Hypothesis R0 : 0 < r.
Hypothesis C0 : 0 < c.
Lemma hybrid_y : forall l h, rectangle r c h -> length l = c -> cube_manipulation false true r c data (A1 l) (A2 h) = Ok (data, A2 (repeat l r), A2 h).
Proof.
  intros l h RH L. unfold cube_manipulation. rewrite (shape_is_rect r c h R0 RH). cbn [shape_is orb andb]. rewrite L. destruct (Nat.eqb_spec c r) as [E|_]; [rewrite <- E; reflexivity|]. rewrite Nat.eqb_refl. reflexivity.
Qed.
Lemma hybrid_x : forall l h, rectangle r c h -> length l = c -> cube_manipulation false true r c data (A2 h) (A1 l) = Ok (data, A2 h, A2 (repeat l r)).
Proof.
  intros l h RH L. unfold cube_manipulation. rewrite (shape_is_rect r c h R0 RH). cbn [shape_is orb andb]. rewrite L. destruct (Nat.eqb_spec c r) as [E|_]; [rewrite <- E; reflexivity|]. rewrite Nat.eqb_refl. reflexivity.
Qed.
Lemma hybrid_draws : forall l h, rectangle r c h -> length l = c -> draws_hybrid false r c data l Across h data (repeat l r) h.
Proof.
  intros l h RH L. split; [exact RD|]. split; [rewrite <- L; apply repeat_rect|]. split; [exact RH|]. intros p q P Q. cbn [place index]. split; [reflexivity|]. split; [apply repeat_cell; exact P|reflexivity].
Qed.
(** a coordinate down gets the wrong shape, or the wrong direction *)
Lemma hybrid_y_down : forall l h, rectangle r c h -> length l = r -> cube_manipulation false true r c data (A1 l) (A2 h) = Ok (data, A2 (repeat l c), A2 h).
Proof. intros l h RH L. unfold cube_manipulation. rewrite (shape_is_rect r c h R0 RH). cbn [shape_is orb andb]. rewrite L, Nat.eqb_refl. reflexivity. Qed.
Lemma hybrid_x_down : forall l h, rectangle r c h -> length l = r -> cube_manipulation false true r c data (A2 h) (A1 l) = Ok (data, A2 h, A2 (repeat l c)).
Proof. intros l h RH L. unfold cube_manipulation. rewrite (shape_is_rect r c h R0 RH). cbn [shape_is orb andb]. rewrite L, Nat.eqb_refl. reflexivity. Qed.
End Hybrid.
Lemma hybrid_ok : forall {V} tr r c (data : list (list V)) l d h, rectangle r c data -> 0 < r -> 0 < c -> rectangle r c h -> length l = extent d r c -> flip tr d = Across ->
  (exists D ml mh, cube_manipulation tr true r c data (A1 l) (A2 h) = Ok (D, A2 ml, A2 mh) /\ draws_hybrid tr r c data l d h D ml mh) /\
  (exists D ml mh, cube_manipulation tr true r c data (A2 h) (A1 l) = Ok (D, A2 mh, A2 ml) /\ draws_hybrid tr r c data l d h D ml mh).
Proof.
  intros V tr r c data l d h RD R0 C0 RH L F. destruct tr, d; try discriminate; cbn [extent] in L.
  - pose proof (transposed_rect c r data RD) as RT. pose proof (transposed_rect c r h RH) as RHT. pose proof (hybrid_draws c r (transposed c data) RT l (transposed c h) RHT L) as (Q1 & Q2 & Q3 & H).
    assert (DR : draws_hybrid true r c data l Down h (transposed c data) (repeat l c) (transposed c h)).
    { split; [exact Q1|]. split; [exact Q2|]. split; [exact Q3|]. intros p q P Q. cbn [place index]. specialize (H q p Q P). cbn [place index] in H. destruct H as (H1 & H2 & H3). split; [exact (transposed_cell c r data RD p q Q)|]. split; [exact H2|exact (transposed_cell c r h RH p q Q)]. }
    assert (T : axis_t (A2 h) = A2 (transposed c h)) by (cbn; rewrite (transpose_rect r c h R0 RH); reflexivity).
    split; exists (transposed c data), (repeat l c), (transposed c h); (split; [|exact DR]).
    + transitivity (cube_manipulation false true c r (transposed c data) (A1 l) (axis_t (A2 h))); [reflexivity|]. rewrite T. exact (hybrid_y c r (transposed c data) C0 l (transposed c h) RHT L).
    + transitivity (cube_manipulation false true c r (transposed c data) (axis_t (A2 h)) (A1 l)); [reflexivity|]. rewrite T. exact (hybrid_x c r (transposed c data) C0 l (transposed c h) RHT L).
  - split; exists data, (repeat l r), h; (split; [|exact (hybrid_draws r c data RD l h RH L)]).
    + exact (hybrid_y r c data R0 l h RH L).
    + exact (hybrid_x r c data R0 l h RH L).
Qed.
Lemma hybrid_down_bad : forall {V} r c (data : list (list V)) l h, rectangle r c data -> 0 < r -> 0 < c -> rectangle r c h -> length l = r ->
  exists ml, cube_manipulation false true r c data (A1 l) (A2 h) = Ok (data, A2 ml, A2 h) /\ rectangle c r ml /\ forall i j, i < c -> cell ml i j = nth_error l j.
Proof.
  intros V r c data l h RD R0 C0 RH L. exists (repeat l c). split; [exact (hybrid_y_down r c data R0 l h RH L)|]. split; [rewrite <- L; apply repeat_rect|]. intros i j I. apply repeat_cell. exact I.
Qed.

(** ** Bounds (heat maps) *)
Lemma heatmap_ok : forall {V} tr aux r c (data : list (list V)) bx dx by_ dy, rectangle r c data -> dx <> dy -> length bx = S (extent dx r c) -> length by_ = S (extent dy r c) -> flip tr dx = Across ->
  columns tr r c <> S (rows tr r c) -> exists D, cube_manipulation tr aux r c data (A1 bx) (A1 by_) = Ok (D, A1 bx, A1 by_) /\ rectangle (rows tr r c) (columns tr r c) D /\ fits (rows tr r c) (columns tr r c) (A1 bx) (A1 by_) /\
    forall p q, p < r -> q < c -> let '(i, j) := place tr p q in cell D i j = cell data p q /\ index dx p q = j /\ index dy p q = i.
Proof.
  assert (CORE : forall V aux r c (data : list (list V)) bx by_, length bx = S c -> length by_ = S r -> c <> S r -> cube_manipulation false aux r c data (A1 bx) (A1 by_) = Ok (data, A1 bx, A1 by_)).
  { intros V aux r c data bx by_ Lx Ly N. unfold cube_manipulation. cbn [shape_is orb axis_len]. rewrite andb_false_r, Lx, Ly. replace (S c =? c) with false by (symmetry; apply Nat.eqb_neq; lia). replace (S r =? c) with false by (symmetry; apply Nat.eqb_neq; lia). reflexivity. }
  intros V tr aux r c data bx dx by_ dy RD ND Lx Ly F N. unfold columns, rows in *. destruct tr, dx, dy; try discriminate; try contradiction; cbn [extent place fst snd] in *.
  - exists (transposed c data). split; [exact (CORE V aux c r (transposed c data) bx by_ Lx Ly N)|]. split; [exact (transposed_rect c r data RD)|]. split; [cbn; lia|]. intros p q P Q. split; [exact (transposed_cell c r data RD p q Q)|auto].
  - exists data. split; [exact (CORE V aux r c data bx by_ Lx Ly N)|]. split; [exact RD|]. split; [cbn; lia|]. intros p q P Q. auto.
Qed.
Lemma cyc_cases : forall {V} (data : list (list V)) c l D l', add_cyclic_point data c (A1 l) = Ok (D, l') -> length D = length data /\ length l' = S (length l) /\ (0 < c -> Forall (fun row => length row = c) data -> Forall (fun row => length row = S c) D).
Proof.
  intros V data c l D l' H. unfold add_cyclic_point in H. destruct (length l =? c); [|discriminate]. cbn in H. destruct (diffs l) as [|d ds]; [discriminate|]. destruct (isclose d d && forallb (fun e => isclose e d) ds); [|discriminate]. injection H as <- <-.
  split; [apply map_length|]. split; [rewrite app_length; cbn; lia|]. intros C F. apply Forall_forall. intros row I. apply in_map_iff in I. destruct I as (x & <- & I). rewrite Forall_forall in F. apply F in I. rewrite app_length, I. destruct x; cbn in *; lia.
Qed.
(** a heat map of data with one more column than rows *)
Lemma heatmap_bad : forall {V} aux r c (data : list (list V)) bx by_ D x y, rectangle r c data -> 0 < r -> length bx = S c -> length by_ = S r -> c = S r ->
  cube_manipulation false aux r c data (A1 bx) (A1 by_) = Ok (D, x, y) -> length D = r /\ ~ fits r (ncols D) x y.
Proof.
  intros V aux r c data bx by_ D x y [LD FD] R0 Lx Ly C H. unfold cube_manipulation in H. cbn [shape_is orb axis_len flat] in H. rewrite andb_false_r, Lx, Ly in H. replace (S c =? c) with false in H by (symmetry; apply Nat.eqb_neq; lia).
  replace (S r =? c) with true in H by (symmetry; apply Nat.eqb_eq; lia).
  destruct (add_cyclic_point data c (A1 by_)) as [[D0 l0]|e] eqn:E.
  - destruct (cyc_cases data c by_ D0 l0 E) as (L1 & L2 & _). cbn [meshgrid] in H. injection H as <- <- <-. split; [lia|]. unfold fits. cbn. rewrite !map_length. lia.
  - destruct e; try discriminate. cbn [meshgrid] in H. injection H as <- <- <-. split; [exact LD|]. unfold fits. cbn. rewrite !map_length. lia.
Qed.
(** a heat map whose x axis is down *)
Lemma heatmap_swapped : forall {V} aux r c (data : list (list V)) bx by_ D x y, rectangle r c data -> 0 < r -> 0 < c -> length bx = S r -> length by_ = S c -> r <> c ->
  cube_manipulation false aux r c data (A1 bx) (A1 by_) = Ok (D, x, y) -> length D = r /\ ~ fits r (ncols D) x y.
Proof.
  intros V aux r c data bx by_ D x y [LD FD] R0 C0 Lx Ly NE H. unfold cube_manipulation in H. cbn [shape_is orb axis_len flat] in H. rewrite andb_false_r, Lx, Ly in H. replace (S c =? c) with false in H by (symmetry; apply Nat.eqb_neq; lia).
  destruct (Nat.eqb_spec (S r) c) as [C|C].
  - destruct (add_cyclic_point data c (A1 bx)) as [[D0 l0]|e] eqn:E.
    + destruct (cyc_cases data c bx D0 l0 E) as (L1 & L2 & _). cbn [meshgrid] in H. injection H as <- <- <-. split; [lia|]. unfold fits. cbn. rewrite !map_length. lia.
    + destruct e; try discriminate. cbn [meshgrid] in H. injection H as <- <- <-. split; [exact LD|]. unfold fits. cbn. rewrite !map_length. lia.
  - injection H as <- <- <-. split; [exact LD|]. unfold fits. cbn [edges]. assert (NC : ncols data = c) by (destruct data as [|row data]; [cbn in LD; lia|]; inversion FD; assumption). rewrite NC, Lx, Ly. lia.
Qed.
(** ** Around the globe *)
Lemma globe : forall (l : list Q) a0 d c b0 z, (forall k v, nth_error l k = Some v -> (v == a0 + inject_Z (Z.of_nat k) * d)%Q) -> nth_error l 1 = Some b0 -> nth_error l 0 = Some a0 -> nth_error l (c - 1) = Some z -> 1 <= c ->
  (inject_Z (Z.of_nat c) * d == 360)%Q -> (z + (b0 - a0) == a0 + 360)%Q.
Proof.
  intros l a0 d c b0 z H B A Z C G. rewrite (H _ _ Z), (H _ _ B). rewrite <- G. replace (Z.of_nat c) with (Z.of_nat (c - 1) + 1)%Z by lia. rewrite inject_Z_plus. change (inject_Z (Z.of_nat 1)) with 1%Q. change (inject_Z 1) with 1%Q. ring.
Qed.
