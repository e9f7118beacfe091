(** Proofs for C83. *)
From Coq Require Import String.
From Verif Require Import Base PyStr QBase DateModel DateProofs AeroModel AeroSpec AeroProofs UngrModel UngrSpec UngrProofs HdfModel KmModel KmSpec.
From Coq Require Import List Lia Lqa.
Import ListNotations.
Open Scope string_scope. Open Scope list_scope. Open Scope nat_scope. Notation length := List.length.

(** ** slices *)
Lemma stepping_arith f stop : forall cnt fuel s, cnt <= fuel -> (forall k, s + f * k < stop <-> k < cnt) -> stepping fuel s stop f = map (fun k => s + f * k) (seq 0 cnt).
Proof.
  induction cnt as [|cnt IH]; intros fuel s L H.
  - destruct fuel as [|fuel]; [reflexivity|]. cbn [stepping seq map]. destruct (Nat.ltb_spec s stop) as [C|_]; [|reflexivity]. exfalso. apply (Nat.nlt_0_r 0). apply H. lia.
  - destruct fuel as [|fuel]; [lia|]. cbn [stepping]. destruct (Nat.ltb_spec s stop) as [_|C]; [|exfalso; assert (X : s + f * 0 < stop) by (apply H; lia); lia].
    cbn [seq map]. f_equal; [lia|]. rewrite <- seq_shift, map_map. rewrite (IH fuel (s + f)); [apply map_ext; intros k; lia|lia|].
    intros k. specialize (H (S k)). replace (s + f + f * k) with (s + f * S k) by lia. rewrite H. lia.
Qed.
Lemma slice_arith n start stop f s cnt : 1 <= f -> let stop' := match stop with Some x => clip n x | None => n end in (cnt = 0 \/ clip n start = s) -> (forall k, clip n start + f * k < stop' <-> k < cnt) ->
  slice n start stop f = map (fun k => s + f * k) (seq 0 cnt).
Proof.
  intros F stop' S H. unfold slice. fold stop'. rewrite (stepping_arith f stop' cnt).
  - destruct S as [->| ->]; reflexivity.
  - destruct cnt as [|cnt]; [lia|]. assert (X : clip n start + f * cnt < stop') by (apply H; lia). nia.
  - exact H.
Qed.
Lemma index_arith s f cnt r k : 1 <= f -> index_of r (map (fun k => s + f * k) (seq 0 cnt)) = Some k <-> r = s + f * k /\ k < cnt.
Proof.
  intros F. revert s k. induction cnt as [|cnt IH]; intros s k; [cbn; split; [discriminate|lia]|].
  cbn [seq map index_of]. rewrite <- seq_shift, map_map. rewrite (map_ext _ (fun k => (s + f) + f * k)) by (intros; lia). destruct (Nat.eqb_spec (s + f * 0) r) as [E|N].
  - split; [intros [= <-]; split; [lia|lia]|]. intros [E2 L]. f_equal. nia.
  - specialize (IH (s + f)). destruct (index_of r (map (fun k => s + f + f * k) (seq 0 cnt))) as [k'|] eqn:E; cbn [option_map].
    + destruct (proj1 (IH k') eq_refl) as [-> L]. split; [intros [= <-]; lia|]. intros [E2 L2]. f_equal. nia.
    + split; [discriminate|]. intros [-> L]. destruct k as [|k]; [lia|]. exfalso. assert (X : None = Some k) by (apply IH; lia). discriminate X.
Qed.
Lemma index_none s f cnt r : 1 <= f -> (forall k, k < cnt -> r <> s + f * k) -> index_of r (map (fun k => s + f * k) (seq 0 cnt)) = None.
Proof. intros F H. destruct (index_of r _) as [k|] eqn:E; [|reflexivity]. apply (index_arith s f cnt r k F) in E. destruct E as [E L]. exfalso. exact (H k L E). Qed.

Lemma half_f h : (2 * h + 1) / 2 = h.
Proof. replace (2 * h + 1) with (1 + h * 2) by lia. rewrite Nat.div_add by lia. reflexivity. Qed.
Section Odd.
Variable h n : nat.
Hypothesis H1 : 1 <= h.
Notation f := (2 * h + 1).
Lemma stop_f : stop_index Py2 f = Ok (- Z.of_nat h)%Z.
Proof. unfold stop_index. f_equal. replace (- Z.of_nat f)%Z with (1 + (- Z.of_nat h - 1) * 2)%Z by lia. rewrite Z.div_add by lia. change (1 / 2)%Z with 0%Z. lia. Qed.
Lemma slice_base : slice (f * n) (Z.of_nat h) None f = map (fun k => h + f * k) (seq 0 n).
Proof. apply slice_arith; [lia| |]; unfold clip; replace (Z.of_nat h <? 0)%Z with false by (symmetry; apply Z.ltb_ge; lia). { destruct n as [|m]; [left; reflexivity|right; lia]. } intros k. destruct n as [|m]; [lia|]. nia. Qed.
Lemma slice_dst i : 1 <= i -> i <= f -> slice (f * n) (Z.of_nat h + Z.of_nat i) (Some (- Z.of_nat h)%Z) f = map (fun k => h + i + f * k) (seq 0 (n - 1)).
Proof.
  intros I1 I2. apply slice_arith; [lia| |]; unfold clip; replace (Z.of_nat h + Z.of_nat i <? 0)%Z with false by (symmetry; apply Z.ltb_ge; lia).
  - destruct n as [|[|m]]; [left; reflexivity|left; reflexivity|right; nia].
  - replace (- Z.of_nat h <? 0)%Z with true by (symmetry; apply Z.ltb_lt; lia). intros k. destruct n as [|[|m]]; [nia|nia|]. nia.
Qed.
Lemma slice_hi : slice (f * n) (Z.of_nat h + Z.of_nat f) None f = map (fun k => h + f + f * k) (seq 0 (n - 1)).
Proof.
  apply slice_arith; [lia| |]; unfold clip; replace (Z.of_nat h + Z.of_nat f <? 0)%Z with false by (symmetry; apply Z.ltb_ge; lia).
  - destruct n as [|[|m]]; [left; reflexivity|left; reflexivity|right; nia].
  - intros k. destruct n as [|[|m]]; [nia|nia|]. nia.
Qed.
Lemma slice_lo : slice (f * n) (Z.of_nat h) (Some (- Z.of_nat f)%Z) f = map (fun k => h + f * k) (seq 0 (n - 1)).
Proof.
  apply slice_arith; [lia| |]; unfold clip; replace (Z.of_nat h <? 0)%Z with false by (symmetry; apply Z.ltb_ge; lia).
  - destruct n as [|[|m]]; [left; reflexivity|left; reflexivity|right; nia].
  - replace (- Z.of_nat f <? 0)%Z with true by (symmetry; apply Z.ltb_lt; lia). intros k. destruct n as [|[|m]]; [nia|nia|]. nia.
Qed.
Definition val (i : nat) (hi lo : option Q) : option Q := arith Qplus (option_map (fun d => inject_Z (Z.of_nat i) * (d / inject_Z (Z.of_nat f)))%Q (arith Qminus hi lo)) lo.
Definition within (i r : nat) : Prop := exists k j, k < n - 1 /\ 1 <= j <= i /\ r = h + f * k + j.
Lemma nth_arith s cnt k : k < cnt -> nth k (map (fun k => s + f * k) (seq 0 cnt)) 0 = s + f * k.
Proof. intros L. rewrite (nth_indep _ 0 (s + f * 0)) by (rewrite map_length, seq_length; exact L). rewrite (map_nth (fun k => s + f * k)), seq_nth by exact L. reflexivity. Qed.
Lemma axis_ok (g : line) : exists G, interpolate_axis Py2 f (f * n) g = Ok G /\ (forall k j, k < n - 1 -> 1 <= j <= f -> G (h + f * k + j) = val j (g (h + f * S k)) (g (h + f * k))) /\ (forall r, ~ within f r -> G r = g r).
Proof.
  assert (X : forall i, i <= f -> exists G, fold_left (fun acc i => bind acc (fun g => bind (stop_index Py2 f) (fun stop =>
      let dst := slice (f * n) (Z.of_nat (f / 2) + Z.of_nat i) (Some stop) f in let hi := slice (f * n) (Z.of_nat (f / 2) + Z.of_nat f) None f in let lo := slice (f * n) (Z.of_nat (f / 2)) (Some (- Z.of_nat f)%Z) f in
      if (length dst =? length hi) && (length hi =? length lo) then Ok (assign f i dst hi lo g) else Raises ValueError))) (seq 1 i) (Ok g) = Ok G /\
    (forall k j, k < n - 1 -> 1 <= j <= i -> G (h + f * k + j) = val j (g (h + f * S k)) (g (h + f * k))) /\ (forall r, ~ within i r -> G r = g r)).
  { induction i as [|i IH]; intros L; [exists g; split; [reflexivity|]; split; [intros; lia|reflexivity]|].
    destruct IH as (G & E & A & B); [lia|]. rewrite seq_S, fold_left_app, E. cbn [fold_left bind]. rewrite stop_f. cbn [bind]. rewrite half_f. cbv zeta.
    change (1 + i) with (S i). rewrite (slice_dst (S i)) by lia. rewrite slice_hi, slice_lo, !map_length, seq_length, Nat.eqb_refl. cbn [andb]. eexists. split; [reflexivity|].
    assert (Base : forall k, G (h + f * k) = g (h + f * k)) by (intros k; apply B; intros (k' & j & K & J & Q); destruct (Nat.le_gt_cases k k'); nia).
    split.
    - intros k j K J. unfold assign. destruct (Nat.eq_dec j (S i)) as [->|N].
      + assert (I : index_of (h + f * k + S i) (map (fun k => h + S i + f * k) (seq 0 (n - 1))) = Some k) by (apply index_arith; [lia|split; [lia|exact K]]). rewrite I.
        rewrite !nth_arith by exact K. replace (h + f + f * k) with (h + f * S k) by lia. rewrite !Base. reflexivity.
      + rewrite index_none; [apply A; [exact K|lia]|lia|]. intros k' K' Q. destruct (Nat.lt_trichotomy k k') as [T|[T|T]]; nia.
    - intros r N. unfold assign. rewrite index_none; [apply B; intros (k & j & K & J & Q); apply N; exists k, j; lia|lia|]. intros k K Q. apply N. exists k, (S i). lia. }
  unfold interpolate_axis. exact (X f (le_n f)).
Qed.
Definition near (o : option Q) (q : Q) : Prop := exists v, o = Some v /\ (v == q)%Q.
Lemma line_blend (g : line) D : (forall k, k < n -> near (g (h + f * k)) (D k)) -> exists G, interpolate_axis Py2 f (f * n) g = Ok G /\ forall r k j, lies f n r k j -> near (G r) (between f j (D k) (D (S k))).
Proof.
  intros ND. destruct (axis_ok g) as (G & E & A & B). exists G. split; [exact E|]. intros r k j (-> & J & K & C). rewrite half_f.
  assert (V : forall k j, k < n - 1 -> 1 <= j <= f -> near (G (h + f * k + j)) (between f j (D k) (D (S k)))).
  { intros k' j' K' J'. rewrite (A k' j' K' J'). destruct (ND k') as (a & Ea & Qa); [lia|]. destruct (ND (S k')) as (b & Eb & Qb); [lia|]. rewrite Ea, Eb. unfold val, near. cbn [arith option_map]. eexists. split; [reflexivity|].
    rewrite Qa, Qb. unfold between. field. intros Z. assert (Z' : (inject_Z (Z.of_nat f) == inject_Z 0)%Q) by exact Z. rewrite inject_Z_injective in Z'. lia. }
  destruct (Nat.eq_dec j 0) as [->|N].
  - rewrite Nat.add_0_r. assert (FZ : ~ (inject_Z (Z.of_nat f) == 0)%Q) by (intros Z; assert (Z' : (inject_Z (Z.of_nat f) == inject_Z 0)%Q) by exact Z; rewrite inject_Z_injective in Z'; lia).
    destruct k as [|k].
    + rewrite B. { destruct (ND 0 K) as (a & Ea & Qa). exists a. split; [exact Ea|]. rewrite Qa. unfold between. change (inject_Z (Z.of_nat 0)) with 0%Q. field. exact FZ. }
      intros (k' & j' & K' & J' & Q). nia.
    + destruct (V k f) as (v & Ev & Qv); [lia|lia|]. replace (h + f * S k) with (h + f * k + f) by lia. exists v. split; [exact Ev|]. rewrite Qv. unfold between. change (inject_Z (Z.of_nat 0)) with 0%Q. field. exact FZ.
  - apply V; lia.
Qed.
Lemma line_out (g : line) : exists G, interpolate_axis Py2 f (f * n) g = Ok G /\ (forall r, (forall k j, ~ lies f n r k j) -> g r = None -> G r = None) /\ ((forall r, g r = None) -> forall r, G r = None).
Proof.
  destruct (axis_ok g) as (G & E & A & B). exists G. split; [exact E|]. split.
  - intros r N Z. rewrite B; [exact Z|]. intros (k & j & K & J & ->). destruct (Nat.eq_dec j f) as [->|M]; [apply (N (S k) 0)|apply (N k j)]; unfold lies; rewrite half_f; lia.
  - intros Z r. assert (C : within f r \/ ~ within f r).
    { unfold within. destruct (Nat.le_gt_cases r h) as [L|L]; [right; intros (k & j & K & J & ->); nia|].
      set (q := (r - h - 1) / f). assert (D : r - h - 1 = f * q + (r - h - 1) mod f) by (apply Nat.div_mod; lia). pose proof (Nat.mod_upper_bound (r - h - 1) f ltac:(lia)) as M.
      destruct (Nat.lt_ge_cases q (n - 1)) as [K|K]; [left; exists q, ((r - h - 1) mod f + 1); lia|right; intros (k & j & K' & J & Q)].
      assert (f * k + f <= f * q) by nia. lia. }
    destruct C as [(k & j & K & J & ->)|C]; [rewrite (A k j K J), !Z; reflexivity|rewrite (B r C); apply Z].
Qed.
End Odd.
(** ** two dimensions *)
Section Field.
Variable h : nat.
Hypothesis H1 : 1 <= h.
Notation f := (2 * h + 1).
Lemma lines_ok n (lines : nat -> line) : exists out, interpolate_lines Py2 f (f * n) lines = Ok out /\ forall c G, interpolate_axis Py2 f (f * n) (lines c) = Ok G -> out c = (fun r => G r).
Proof.
  unfold interpolate_lines. destruct (axis_ok h n H1 (fun _ => None)) as (G0 & -> & _). eexists. split; [reflexivity|]. intros c G E. cbn beta. rewrite E. reflexivity.
Qed.
Lemma spread_at g k l : k < g_n g -> l < g_m g -> spread f g (h + f * k) (h + f * l) = Some (raw g k l).
Proof.
  intros K L. unfold spread. rewrite (half_f h), !slice_base by exact H1.
  rewrite (proj2 (index_arith h f (g_n g) (h + f * k) k ltac:(lia))) by (split; [reflexivity|exact K]). rewrite (proj2 (index_arith h f (g_m g) (h + f * l) l ltac:(lia))) by (split; [reflexivity|exact L]). reflexivity.
Qed.
Lemma spread_out g r c : (forall l, l < g_m g -> c <> h + f * l) -> spread f g r c = None.
Proof. intros N. unfold spread. rewrite (half_f h), !slice_base by exact H1. rewrite (index_none h f (g_m g) c ltac:(lia) N). destruct (index_of r _); reflexivity. Qed.
Lemma spread_out_row g r c : (forall k, k < g_n g -> r <> h + f * k) -> spread f g r c = None.
Proof. intros N. unfold spread. rewrite (half_f h), !slice_base by exact H1. rewrite (index_none h f (g_n g) r ltac:(lia) N). reflexivity. Qed.
Theorem interpolated g : exists out, field_interpolate Py2 f g = Ok out /\
  (forall r c k j l i, lies f (g_n g) r k j -> lies f (g_m g) c l i ->
     exists v, out r c = Some v /\ (v == between f i (between f j (raw g k l) (raw g (S k) l)) (between f j (raw g k (S l)) (raw g (S k) (S l))))%Q) /\
  (forall r c, (forall k j, ~ lies f (g_n g) r k j) \/ (forall l i, ~ lies f (g_m g) c l i) -> out r c = None).
Proof.
  unfold field_interpolate. destruct (lines_ok (g_n g) (fun c r => spread f g r c)) as (out1 & E1 & O1). rewrite E1. cbn [bind].
  destruct (lines_ok (g_m g) (fun r c => out1 c r)) as (out & E & O). rewrite E. exists out. split; [reflexivity|].
  (* the first pass *)
  assert (P1 : forall r k j l, lies f (g_n g) r k j -> l < g_m g -> near (out1 (h + f * l) r) (between f j (raw g k l) (raw g (S k) l))).
  { intros r k j l R L. destruct (line_blend h (g_n g) H1 (fun r => spread f g r (h + f * l)) (fun k => raw g k l)) as (G & EG & B).
    - intros k' K'. exists (raw g k' l). split; [apply spread_at; assumption|reflexivity].
    - rewrite (O1 _ G EG). exact (B r k j R). }
  assert (P2 : forall r c, (forall k j, ~ lies f (g_n g) r k j) -> out1 c r = None).
  { intros r c N. destruct (line_out h (g_n g) H1 (fun r => spread f g r c)) as (G & EG & B & _). rewrite (O1 _ G EG). apply B; [exact N|]. apply spread_out_row. intros k K ->. apply (N k 0). unfold lies. rewrite (half_f h). lia. }
  assert (P3 : forall c, (forall l, l < g_m g -> c <> h + f * l) -> forall r, out1 c r = None).
  { intros c N r. destruct (line_out h (g_n g) H1 (fun r => spread f g r c)) as (G & EG & _ & B). rewrite (O1 _ G EG). apply B. intros r'. apply spread_out. exact N. }
  split.
  - intros r c k j l i R C. destruct (line_blend h (g_m g) H1 (fun c => out1 c r) (fun l => between f j (raw g k l) (raw g (S k) l))) as (G & EG & B).
    + intros l' L'. exact (P1 r k j l' R L').
    + rewrite (O r G EG). exact (B c l i C).
  - intros r c [N|N].
    + destruct (line_out h (g_m g) H1 (fun c => out1 c r)) as (G & EG & _ & B). rewrite (O r G EG). apply B. intros c'. apply P2. exact N.
    + destruct (line_out h (g_m g) H1 (fun c => out1 c r)) as (G & EG & B & _). rewrite (O r G EG). apply B; [exact N|]. apply P3. intros l L ->. apply (N l 0). unfold lies. rewrite (half_f h). lia.
Qed.
End Field.
(** ** Python 3 *)
Theorem py3 factor g : 1 <= factor -> field_interpolate Py3 factor g = Raises TypeError.
Proof.
  intros F. assert (A : forall n g, interpolate_axis Py3 factor n g = Raises TypeError).
  { intros n l. unfold interpolate_axis. destruct factor as [|k]; [lia|]. cbn [seq fold_left bind stop_index]. generalize (seq 2 k). intros s. induction s as [|x s IH]; [reflexivity|exact IH]. }
  unfold field_interpolate, interpolate_lines. rewrite A. reflexivity.
Qed.
(** ** reading *)
Lemma contains_other (s dim : str) : contains (lit "1km") dim = false -> find (fun s => contains s dim) [lit "1km"; lit "5km"; lit "10km"] <> Some (lit "1km").
Proof. intros E. cbn [find]. rewrite E. destruct (contains (lit "5km") dim); [discriminate|]. destruct (contains (lit "10km") dim); discriminate. Qed.
Lemma applied dim : apply_interpolation dim = true <-> mentions (lit "1km") dim.
Proof.
  rewrite <- contains_iff. unfold apply_interpolation, data_scale. cbn [find]. destruct (contains (lit "1km") dim) eqn:E; [split; reflexivity|]. split; [|discriminate].
  destruct (contains (lit "5km") dim); [discriminate|]. destruct (contains (lit "10km") dim); discriminate.
Qed.
Definition glued (m : nat) (l : list grid) : grid := mkGrid (list_sum (map g_n l)) m (flat_map g_cells l).
Lemma glue_fold m l : forall a, g_m a = m -> Forall (fun g => g_m g = m) l -> fold_left (fun acc b => bind acc (fun a => glue a b)) l (Ok a) = Ok (mkGrid (g_n a + list_sum (map g_n l)) m (g_cells a ++ flat_map g_cells l)).
Proof.
  induction l as [|b l IH]; intros a M F; cbn [fold_left map list_sum fold_right flat_map].
  - rewrite Nat.add_0_r, app_nil_r. destruct a; cbn in M |- *; subst; reflexivity.
  - inversion F as [|? ? Mb F']; subst. cbn [bind]. unfold glue at 2. rewrite Mb, Nat.eqb_refl. rewrite IH by (auto; reflexivity). cbn [g_n g_cells]. rewrite app_assoc, Nat.add_assoc. reflexivity.
Qed.
Lemma glue_all_ok m l : l <> [] -> Forall (fun g => g_m g = m) l -> glue_all l = Ok (glued m l).
Proof. destruct l as [|a l]; [intros N; exfalso; apply N; reflexivity|intros _ F]. inversion F; subst. cbn [glue_all]. rewrite (glue_fold (g_m a) l a eq_refl) by assumption. reflexivity. Qed.
Lemma shown_glued m l : shown (glued m l) = flat_map shown l.
Proof. unfold shown, glued. cbn [g_cells]. induction l as [|a l IH]; [reflexivity|]. cbn [flat_map]. rewrite map_app, IH. reflexivity. Qed.
Lemma full_glued m l : Forall (fun g => full g /\ g_m g = m) l -> length (g_cells (glued m l)) = list_sum (map g_n l) * m.
Proof. unfold glued. cbn [g_cells]. induction 1 as [|a l [A B] F IH]; [reflexivity|]. cbn [flat_map map list_sum fold_right]. rewrite app_length, IH, A, B. fold (list_sum (map g_n l)). lia. Qed.
Lemma flatten_length n m a : length (flatten n m a) = n * m.
Proof.
  unfold flatten. assert (X : forall l, length (flat_map (fun r => map (a r) (seq 0 m)) l) = length l * m).
  { induction l as [|x l IH]; [reflexivity|]. cbn [flat_map length]. rewrite app_length, map_length, seq_length, IH. lia. }
  rewrite X, seq_length. reflexivity.
Qed.
(** the table of one file *)
Definition cell_row (f : kfile) (i : nat) : list (option Q) * option Q :=
  let at_ g := match nth_error (g_cells g) i with Some c => if snd c then None else Some (fst c) | None => None end in
  ([at_ (k_lat f); at_ (k_lon f); option_map since_1993 (at_ (k_time f))], at_ (k_var f)).
Lemma nth_map_d {A B} (g : A -> B) (l : list A) d i x : nth_error l i = Some x -> nth i (map g l) d = g x.
Proof. revert i. induction l as [|a l IH]; intros [|i]; cbn; try discriminate; [intros [= ->]; reflexivity|apply IH]. Qed.
Lemma shown_nth g i : nth i (shown g) None = match nth_error (g_cells g) i with Some c => if snd c then None else Some (fst c) | None => None end.
Proof.
  unfold shown. destruct (nth_error (g_cells g) i) as [c|] eqn:E; [rewrite (nth_map_d _ _ _ _ c E); reflexivity|]. apply nth_error_None in E. apply nth_overflow. rewrite map_length. exact E.
Qed.
Lemma shown_length g : length (shown g) = length (g_cells g).
Proof. apply map_length. Qed.
Lemma since_1993_eq x : (since_1993 x == 143541 + x / 86400)%Q.
Proof. unfold since_1993, convert_sec_since_to_std_time. change (inject_Z (offset_days (mkDT 1993 1 1 0 0 0))) with 143541%Q. reflexivity. Qed.
Section Read.
Variable m : nat.
Variable files : list kfile.
Definition col (sel : kfile -> grid) : list (option Q) := flat_map (fun f => shown (sel f)) files.
Lemma col_eq sel : shown (glued m (map sel files)) = col sel.
Proof. rewrite shown_glued. unfold col. induction files as [|f l IH]; [reflexivity|]. cbn [map flat_map]. rewrite IH. reflexivity. Qed.
End Read.
Lemma one_grids m files sel : (sel = k_lat \/ sel = k_lon \/ sel = k_time \/ sel = k_var) -> Forall (one_shape m) files -> Forall (fun g => full g /\ g_m g = m) (map sel files) /\ Forall (fun f => length (shown (sel f)) = length (shown (k_var f))) files.
Proof.
  intros S F. split.
  - apply Forall_map. eapply Forall_impl; [|exact F]. intros f (A & B & C & D). destruct S as [->|[->|[->| ->]]]; tauto.
  - eapply Forall_impl; [|exact F]. intros f (A & B & C & D). rewrite !shown_length. destruct D as (D & D2 & D3). rewrite D, D2. destruct S as [->|[->|[->| ->]]]; [destruct A as (X & Y & Z)|destruct B as (X & Y & Z)|destruct C as (X & Y & Z)|]; try (rewrite X, Y, Z; reflexivity). rewrite D, D2. reflexivity.
Qed.
Lemma col_length files sel : Forall (fun f => length (shown (sel f)) = length (shown (k_var f))) files -> length (col files sel) = length (col files k_var).
Proof. unfold col. induction 1 as [|f l E F IH]; [reflexivity|]. cbn [flat_map]. rewrite !app_length, E, IH. reflexivity. Qed.
Definition table (files : list kfile) : udata :=
  mkU [mkCoord (Some (lit "latitude")) [] (lit "Latitude") (lit "Y") [] (col files k_lat); mkCoord (Some (lit "longitude")) [] (lit "Longitude") (lit "X") [] (col files k_lon);
       mkCoord (Some (lit "time")) [] (lit "Scan_Start_Time") (lit "T") [] (map (option_map since_1993) (col files k_time))] [] (col files k_var).
Lemma nth_flat {A} (fs : list A) (g v : A -> list (option Q)) : Forall (fun f => length (g f) = length (v f)) fs -> forall i,
  match (fix find fs i := match fs with [] => None | f :: fs => if i <? length (v f) then Some (f, i) else find fs (i - length (v f)) end) fs i with
  | Some (f, j) => nth i (flat_map g fs) None = nth j (g f) None /\ j < length (v f) /\ In f fs | None => length (flat_map v fs) <= i end.
Proof.
  induction 1 as [|f fs E F IH]; intros i; [cbn; lia|]. cbn [flat_map]. destruct (Nat.ltb_spec i (length (v f))) as [L|L].
  - split; [apply app_nth1; lia|]. split; [exact L|left; reflexivity].
  - specialize (IH (i - length (v f))). destruct (_ fs (i - length (v f))) as [[f' j]|].
    + destruct IH as (A1 & A2 & A3). split; [rewrite app_nth2 by lia; rewrite E; exact A1|]. split; [exact A2|right; exact A3].
    + rewrite app_length. lia.
Qed.
Lemma table_rows m files : Forall (one_shape m) files -> Forall2 own_cell (all_cells files) (rows (table files)).
Proof.
  intros F.
  assert (R : rows (table files) = flat_map (fun f => map (cell_row f) (seq 0 (length (shown (k_var f))))) files).
  { unfold rows, table at 2. cbn [u_values].
    assert (G : forall pre fs, Forall (one_shape m) pre -> Forall (one_shape m) fs -> map (row_at (table (pre ++ fs))) (seq (length (col pre k_var)) (length (col fs k_var))) = flat_map (fun f => map (cell_row f) (seq 0 (length (shown (k_var f))))) fs).
    { intros pre fs P Q. revert pre P. induction Q as [|f fs Qf Q IH]; intros pre P; [reflexivity|].
      assert (CC : forall sel a b, col (a ++ b) sel = col a sel ++ col b sel) by (intros; unfold col; apply flat_map_app).
      change (col (f :: fs) k_var) with (shown (k_var f) ++ col fs k_var). rewrite app_length, seq_app, map_app. cbn [flat_map]. f_equal.
      - apply nth_ext with (d := ([], None)) (d' := ([], None)); [rewrite !map_length, !seq_length; reflexivity|]. intros i I. rewrite map_length, seq_length in I.
        rewrite (nth_map_d _ (seq (length (col pre k_var)) (length (shown (k_var f)))) _ i (length (col pre k_var) + i)) by (rewrite (nth_error_nth' _ 0) by (rewrite seq_length; exact I); rewrite seq_nth by exact I; reflexivity).
        rewrite (nth_map_d _ (seq 0 (length (shown (k_var f)))) _ i i) by (rewrite (nth_error_nth' _ 0) by (rewrite seq_length; exact I); rewrite seq_nth by exact I; reflexivity).
        assert (X : forall sel, (sel = k_lat \/ sel = k_lon \/ sel = k_time \/ sel = k_var) -> nth (length (col pre k_var) + i) (col (pre ++ f :: fs) sel) None = nth i (shown (sel f)) None /\ length (col pre sel) = length (col pre k_var) /\ i < length (shown (sel f))).
        { intros sel S. destruct (one_grids m pre sel S P) as [_ L1]. apply col_length in L1. destruct (one_grids m [f] sel S (Forall_cons _ Qf (Forall_nil _))) as [_ L2]. inversion L2 as [|? ? L3 _]; subst.
          rewrite CC. change (col (f :: fs) sel) with (shown (sel f) ++ col fs sel). split; [|split; [exact L1|lia]]. rewrite app_nth2 by lia. rewrite L1, Nat.add_comm, Nat.add_sub. apply app_nth1. lia. }
        unfold row_at, table. cbn [u_coords u_values map c_points]. unfold cell_row.
        rewrite (proj1 (X k_lat ltac:(tauto))), (proj1 (X k_lon ltac:(tauto))), (proj1 (X k_var ltac:(tauto))), !shown_nth.
        f_equal. f_equal. f_equal. f_equal. destruct (X k_time ltac:(tauto)) as [X1 [X2 X3]].
        assert (Y : forall l j, nth j (map (option_map since_1993) l) None = option_map since_1993 (nth j l None)) by (intros l j; exact (map_nth (option_map since_1993) l None j)).
        rewrite Y, X1, shown_nth. reflexivity.
      - replace (length (col pre k_var) + length (shown (k_var f))) with (length (col (pre ++ [f]) k_var)) by (rewrite CC, app_length; unfold col at 2; cbn [flat_map]; rewrite app_nil_r; reflexivity).
        replace (pre ++ f :: fs) with ((pre ++ [f]) ++ fs) by (rewrite <- app_assoc; reflexivity). apply IH. apply Forall_app. split; [exact P|repeat constructor; apply Qf]. }
    exact (G [] files (Forall_nil _) F). }
  rewrite R. clear R. unfold all_cells. induction F as [|f fs Ff F IH]; [constructor|]. cbn [flat_map]. apply Forall2_app; [|exact IH].
  destruct Ff as (A & B & C & D). destruct D as (D1 & D2 & D3). rewrite shown_length, D1.
  assert (L : forall i, In i (seq 0 (g_n (k_var f) * g_m (k_var f))) -> i < length (g_cells (k_var f))) by (intros i I; rewrite D1; apply in_seq in I; lia).
  revert L. generalize (seq 0 (g_n (k_var f) * g_m (k_var f))). intros s L. induction s as [|i s IHs]; [constructor|]. cbn [map]. constructor; [|apply IHs; intros j J; apply L; right; exact J].
  assert (I : i < length (g_cells (k_var f))) by (apply L; left; reflexivity).
  assert (T : forall g, full g /\ g_m g = m /\ g_n g = g_n (k_var f) -> exists x b, nth_error (g_cells g) i = Some (x, b)).
  { intros g (X & Y & Z). destruct (nth_error (g_cells g) i) as [[x b]|] eqn:E; [exists x, b; reflexivity|]. apply nth_error_None in E. rewrite X, Y, Z in E. rewrite D1, D2 in I. lia. }
  destruct (T _ A) as (xa & ba & Ea), (T _ B) as (xb & bb & Eb), (T _ C) as (xc & bc & Ec), (T _ (conj D1 (conj D2 D3))) as (xd & bd & Ed).
  exists (if ba then None else Some xa), (if bb then None else Some xb), (if bc then None else Some xc), (option_map since_1993 (if bc then None else Some xc)).
  cbn [fst snd]. unfold cell_row. rewrite Ea, Eb, Ec, Ed. cbn [fst snd].
  split; [reflexivity|]. split; [exists xa, ba; auto|]. split; [exists xb, bb; auto|]. split; [exists xc, bc; auto|]. split; [destruct bc; cbn; [exact Logic.I|apply since_1993_eq]|exists xd, bd; auto].
Qed.
Lemma table_aligned m files : Forall (one_shape m) files -> aligned (table files).
Proof.
  intros F. unfold aligned, table. cbn [u_coords u_values]. repeat constructor; cbn [c_points]; rewrite ?map_length; apply col_length; [apply (one_grids m files k_lat)|apply (one_grids m files k_lon)|apply (one_grids m files k_time)]; auto.
Qed.
(** the shapes play no part in the rows *)
Theorem coarse_read p dim files m : ~ mentions (lit "1km") dim -> files <> [] -> Forall (one_shape m) files ->
  exists d raw, read_l2 p dim files = Ok d /\ Forall2 own_cell (all_cells files) raw /\ rows d = filter located raw /\ map c_std (u_coords d) = [Some (lit "latitude"); Some (lit "longitude"); Some (lit "time")].
Proof.
  intros N NE F. unfold read_l2. assert (A : apply_interpolation dim = false) by (destruct (apply_interpolation dim) eqn:E; [exfalso; apply N, applied, E|reflexivity]). rewrite A.
  assert (G : forall sel, (sel = k_lat \/ sel = k_lon \/ sel = k_time \/ sel = k_var) -> glue_all (map sel files) = Ok (glued m (map sel files))).
  { intros sel S. apply glue_all_ok; [destruct files; [exfalso; apply NE; reflexivity|discriminate]|]. eapply Forall_impl; [|exact (proj1 (one_grids m files sel S F))]. intros g [_ X]. exact X. }
  rewrite !G by tauto. cbn [bind points_of fst snd]. rewrite !col_eq.
  match goal with |- exists d raw, post_process ?u = _ /\ _ => set (U := u) end.
  assert (RU : rows U = rows (table files)) by reflexivity. assert (AU : aligned U).
  { unfold aligned, U. cbn [u_coords u_values]. repeat constructor; cbn [c_points]; rewrite ?map_length; apply col_length; [apply (one_grids m files k_lat)|apply (one_grids m files k_lon)|apply (one_grids m files k_time)]; auto. }
  destruct (post_process_spec U AU) as (d & P & _ & RR & I). exists d, (rows (table files)). split; [exact P|]. split; [apply (table_rows m); exact F|]. split; [rewrite RR, RU; reflexivity|].
  assert (X : forall cs, map c_std cs = map (fun t => fst (fst (fst t))) (map identity_of cs)) by (intros; rewrite map_map; reflexivity). rewrite X, I, <- X. reflexivity.
Qed.
(** a variable at 1 km *)
Lemma mask_len n cs e : fold_left (fun m0 c => bind m0 (fun m0 => if (length (c_points c) =? n)%nat then Ok (or_masks m0 (map is_missing (c_points c))) else Raises ValueError)) cs (Raises e) = Raises e.
Proof. induction cs as [|c cs IH]; [reflexivity|exact IH]. Qed.
Theorem fine_read dim files m v : mentions (lit "1km") dim -> files <> [] -> Forall (placed m) files -> glue_all (map k_var files) = Ok v -> full v -> 2 <= list_sum (map (fun f => g_n (k_time f)) files) * m ->
  read_l2 Py2 dim files = Raises ValueError /\ read_l2 Py3 dim files = Raises TypeError.
Proof.
  intros M NE F EV FV L. apply applied in M. unfold read_l2. rewrite M.
  assert (G : forall sel, (sel = k_lat \/ sel = k_lon \/ sel = k_time) -> glue_all (map sel files) = Ok (glued m (map sel files)) /\ list_sum (map g_n (map sel files)) = list_sum (map (fun f => g_n (k_time f)) files) /\ length (g_cells (glued m (map sel files))) = list_sum (map (fun f => g_n (k_time f)) files) * m).
  { intros sel S. assert (FS : Forall (fun g => full g /\ g_m g = m) (map sel files)) by (apply Forall_map; eapply Forall_impl; [|exact F]; intros f (A & B & C); destruct S as [->|[->| ->]]; tauto).
    assert (LS : list_sum (map g_n (map sel files)) = list_sum (map (fun f => g_n (k_time f)) files)).
    { rewrite map_map. f_equal. apply map_ext_in. intros f I. rewrite Forall_forall in F. destruct (F f I) as (A & B & C). destruct S as [->|[->| ->]]; tauto. }
    split; [|split; [exact LS|rewrite (full_glued m _ FS), LS; reflexivity]]. apply glue_all_ok; [destruct files; [exfalso; apply NE; reflexivity|discriminate]|]. eapply Forall_impl; [|exact FS]. intros g [_ X]. exact X. }
  destruct (G k_lat) as (Ga & La & _); [tauto|]. destruct (G k_lon) as (Go & Lo & _); [tauto|]. destruct (G k_time) as (Gt & Lt & Ct); [tauto|]. rewrite Ga, Go, Gt, EV. cbn [bind points_of].
  split; [|rewrite py3 by lia; reflexivity].
  destruct (interpolated 2 ltac:(lia) (glued m (map k_lat files))) as (oa & Ea & _). change (2 * 2 + 1) with 5 in Ea. rewrite Ea. cbn [bind].
  destruct (interpolated 2 ltac:(lia) (glued m (map k_lon files))) as (oo & Eo & _). change (2 * 2 + 1) with 5 in Eo. rewrite Eo. cbn [bind fst snd].
  set (n := list_sum (map (fun f => g_n (k_time f)) files)) in *. unfold post_process, missing_mask. cbn [u_values u_coords fold_left bind c_points].
  rewrite !flatten_length.
  assert (GN : forall l, g_n (glued m l) = list_sum (map g_n l)) by reflexivity. assert (GM : forall l, g_m (glued m l) = m) by reflexivity.
  rewrite !GN, !GM, La, Lo, map_length, !shown_length, Ct.
  destruct (Nat.eqb_spec (5 * n * (5 * m)) (length (g_cells v))) as [E|E]; [|reflexivity]. cbn [bind].
  destruct (Nat.eqb_spec (n * m) (length (g_cells v))) as [E2|E2]; [|reflexivity]. exfalso. rewrite <- E in E2. nia.
Qed.
