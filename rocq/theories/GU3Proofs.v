(** Proofs for C69, part 3: the rotated data. *)
From Coq Require Import String.
From Verif Require Import Base PyStr QBase LonModel LonSpec LonProofs DateModel UngrModel UngrSpec UngrProofs Subset3Proofs InterpModel InterpSpec InterpProofs Interp2Proofs GUModel GUSpec GUProofs GU2Proofs.
From Coq Require Import List Lia Lqa Arith QArith Qabs.
Import ListNotations.
Open Scope string_scope. Open Scope list_scope. Open Scope nat_scope. Notation length := List.length.

Lemma turns_meridian x t k n i j : same_meridian x t -> same_meridian x (t - turns k n i j)%Q.
Proof. intros H. eapply meridian_trans; [exact H|]. unfold turns. exists (- (k + (if (n - i <=? j)%nat then 1 else 0)))%Z. rewrite inject_Z_opp. ring. Qed.
Lemma circular_carries P x low t' : let d := mkDim P true in let ax := set_longitude_range (mkAxis P None (seq 0 (length P))) low in
  increasing P -> good_axis (continued d) -> (exists p, In p P /\ in_range low p) -> same_meridian x t' -> in_range low t' ->
  carries d (mkDim (lon_points ax) true) (fun j => nth j (lon_columns ax) 0) (placed d x) (before_first d low x) t'.
Proof.
  intros d ax HI G (p0 & Hp0 & R0) SM RT. assert (HN : P <> []) by (intros ->; contradiction). destruct (rotation P low HI HN) as (i & k & R). fold ax in R.
  assert (ST : spans_less_than_turn P).
  { intros a b Ha Hb. destruct G as [GI _]. unfold continued in GI. cbn in GI. apply ss_app_inv in GI. destruct GI as (_ & _ & GI). specialize (GI b (hd 0 P + 360)%Q Hb ltac:(left; reflexivity)).
    assert (hd 0 P <= a)%Q; [|lra]. apply In_nth with (d := 0%Q) in Ha. destruct Ha as (j & Hj & <-). rewrite hd_nth. apply increasing_nth_le; auto. lia. }
  destruct (set_longitude_range_correct (mkAxis P None (seq 0 (length P))) low) as (HI' & HR' & _ & _); auto.
  { split; unfold bounds_list; cbn; rewrite ?repeat_length, ?seq_length; auto. }
  { exists p0. auto. }
  fold ax in HI', HR'. set (P' := lon_points ax) in *. pose proof R as (Hi & L' & LC & RJ). assert (L0 : 0 < length P) by lia.
  assert (N0 : In (nth 0 P' 0%Q) P') by (apply nth_In; lia). rewrite Forall_forall in HR'. pose proof (HR' _ N0) as [A0 B0].
  assert (G' : good_axis (continued (mkDim P' true))).
  { unfold continued. cbn [d_circular d_points]. split; [|rewrite app_length; cbn; lia]. apply sorted_snoc; auto. apply Forall_forall. intros y Hy. rewrite hd_nth. pose proof (HR' y Hy) as [A B]. lra. }
  split; auto.
  - intros c' E. unfold continued in E. cbn [d_circular d_points] in E. destruct (circular_cell P P' (lon_columns ax) i k c' t' R E) as (c & T). exists (t' - turns k (length P) i c')%Q, c. split; [|exact T].
    split; [apply turns_meridian; auto|]. left. eapply encloses_within; [apply G|]. apply T.
  - intros W. exists (wrap_lon (hd 0%Q P) x). pose proof (wrap_lon_range (hd 0%Q P) x) as [WA WB].
    assert (WC : within (continued d) (wrap_lon (hd 0%Q P) x)).
    { unfold within, continued. cbn [d d_circular d_points]. split; [destruct P; [congruence|exact WA]|]. rewrite last_last. apply Qlt_le_weak. exact WB. }
    split; [split; [apply wrap_lon_same|left; exact WC]|]. right. exists t'. split; auto. split; auto. intros p y Hp Sy Ry. cbn [d d_points] in Hp.
    assert (T0 : (t' < nth 0 P' 0)%Q).
    { destruct (Qlt_le_dec t' (nth 0 P' 0%Q)) as [C|C]; auto. exfalso. apply W. unfold within, continued. cbn [d_circular d_points]. rewrite last_last. split; [|rewrite hd_nth; unfold in_range in RT; lra].
      assert (E : hd 0%Q (P' ++ [(hd 0 P' + 360)%Q]) = nth 0 P' 0%Q) by (destruct P'; [cbn in L'; lia|reflexivity]). rewrite E. exact C. }
    apply In_nth with (d := 0%Q) in Hp. destruct Hp as (m & Hm & <-). set (n := length P) in *.
    assert (J : exists j, j < n /\ (j + i) mod n = m).
    { destruct (Nat.le_gt_cases i m); [exists (m - i)|exists (m + n - i)]; (split; [lia|]).
      - replace (m - i + i) with m by lia. apply Nat.mod_small; auto.
      - replace (m + n - i + i) with (m + 1 * n) by lia. rewrite Nat.mod_add by lia. apply Nat.mod_small; auto. }
    destruct J as (j & Hj & Ej). destruct (RJ j Hj) as [_ Rj]. rewrite Ej in Rj.
    assert (SJ : same_meridian (nth j P' 0%Q) y) by (eapply meridian_trans; [|exact Sy]; apply meridian_sym; unfold same_meridian; eexists; exact Rj).
    assert (y == nth j P' 0)%Q as -> by (apply in_range_unique with (s := low); auto; apply HR'; apply nth_In; lia).
    assert (nth 0 P' 0 <= nth j P' 0)%Q by (apply increasing_nth_le; auto; lia). lra.
Qed.
Lemma regional_carries P x low t' gap : let d := mkDim P false in let ax := set_longitude_range (mkAxis P None (seq 0 (length P))) low in
  increasing P -> good_axis (continued d) -> Forall (in_range low) P -> same_meridian x t' -> in_range low t' ->
  carries d (mkDim (lon_points ax) false) (fun j => nth j (lon_columns ax) 0) (placed d x) gap t'.
Proof.
  intros d ax HI G HF SM RT. unfold ax. rewrite unrotated by auto. cbn [lon_points lon_columns]. assert (LG : length (continued d) = length P) by reflexivity. pose proof G as [_ G2]. rewrite LG in G2.
  assert (PT : placed d x t').
  { split; auto. destruct (out_of_bounds1 (continued d) t') eqn:E; [|left; apply out_of_bounds1_spec; auto]. right. intros y Sy W. cbn in W. destruct W as [W1 W2].
    assert (RY : in_range low y).
    { rewrite Forall_forall in HF. rewrite hd_nth in W1. rewrite last_nth in W2. pose proof (HF _ (nth_In P 0%Q (n := 0) ltac:(lia))). pose proof (HF _ (nth_In P 0%Q (n := length P - 1) ltac:(lia))). unfold in_range in *. lra. }
    assert (y == t')%Q by (apply in_range_unique with (s := low); auto; eapply meridian_trans; [apply meridian_sym; exact SM|exact Sy]).
    assert (out_of_bounds1 (continued d) t' = false); [|congruence]. apply out_of_bounds1_spec. unfold within. cbn. rewrite <- H. auto. }
  split; auto.
  - intros c' E. exists t', c'. split; auto. pose proof E as [Hc _]. change (S c' < length P) in Hc. unfold cell_transfer, back. cbn [d d_circular andb]. rewrite !seq_nth by lia. split; auto. split; [reflexivity|]. split; [reflexivity|]. auto.
  - intros W. exists t'. auto.
Qed.

Lemma all_carry_app gap ds1 ds1' ph1 Ps1 ts1 ds2 ds2' ph2 Ps2 ts2 : all_carry gap ds1 ds1' ph1 Ps1 ts1 -> all_carry gap ds2 ds2' ph2 Ps2 ts2 -> all_carry gap (ds1 ++ ds2) (ds1' ++ ds2') (ph1 ++ ph2) (Ps1 ++ Ps2) (ts1 ++ ts2).
Proof. induction 1; intros; cbn; auto. constructor; auto. Qed.
Lemma apply_ids n : forall e, apply_all (repeat (fun i : nat => i) n) e = e.
Proof. induction n as [|n IH]; intros [|k e]; cbn; auto. f_equal. apply IH. Qed.
Lemma apply_one (phi : nat -> nat) a b : forall e, length e = a + S b -> apply_all (repeat (fun i => i) a ++ phi :: repeat (fun i => i) b) e = set_index a phi e.
Proof.
  intros e L. assert (exists e1 k e2, e = e1 ++ k :: e2 /\ length e1 = a) as (e1 & k & e2 & -> & <-).
  { exists (firstn a e). destruct (skipn a e) as [|k r] eqn:E; [apply (f_equal (@List.length nat)) in E; rewrite skipn_length in E; cbn in E; lia|]. exists k, r. split; [rewrite <- E; symmetry; apply firstn_skipn|rewrite firstn_length; lia]. }
  rewrite set_index_app. clear L. induction e1 as [|x e1 IH]; cbn; [rewrite apply_ids; reflexivity|]. f_equal. exact IH.
Qed.
Lemma index_where_spec {A} (f : A -> bool) l : match index_where f l with
  | Some i => exists pre x post, l = pre ++ x :: post /\ length pre = i /\ f x = true /\ Forall (fun y => f y = false) pre
  | None => Forall (fun y => f y = false) l end.
Proof.
  induction l as [|x l IH]; cbn; [constructor|]. destruct (f x) eqn:E; [exists [], x, l; auto|]. destruct (index_where f l) as [i|]; cbn; [|constructor; auto].
  destruct IH as (pre & y & post & -> & <- & Hy & HF). exists (x :: pre), y, post. cbn. auto.
Qed.
Lemma is_lon_spec o : is_lon o = true <-> o = Some (lit "longitude").
Proof. unfold is_lon. apply std_eqb_eq. Qed.

Definition turned (low : Q) (g : gdim) : gdim :=
  let pts := d_points (gd_dim g) in mkGDim (gd_std g) (gd_other g) (mkDim (lon_points (set_longitude_range (mkAxis pts None (seq 0 (length pts))) low)) (d_circular (gd_dim g))).
(** the dimensions afterwards *)
Definition turned_dims (low : Q) (dims : list gdim) : list gdim :=
  match index_where (fun d => is_lon (gd_std d)) dims with Some li => firstn li dims ++ turned low (nth li dims no_dim) :: skipn (S li) dims | None => dims end.
Lemma rotate_dims low g : ~ In (Some (lit "longitude")) (g_aux g) -> exists g', rotate low g = Ok g' /\ g_dims g' = turned_dims low (g_dims g) /\ g_aux g' = g_aux g.
Proof.
  intros HA. unfold rotate, turned_dims. destruct (index_where _ (g_dims g)) as [li|].
  - eexists. split; [reflexivity|]. split; reflexivity.
  - destruct (existsb is_lon (g_aux g)) eqn:E; [|exists g; auto]. exfalso. apply existsb_exists in E. destruct E as (o & Ho & E). apply is_lon_spec in E. subst. contradiction.
Qed.
Lemma turned_names low dims : map (fun g => (gd_std g, gd_other g)) (turned_dims low dims) = map (fun g => (gd_std g, gd_other g)) dims.
Proof.
  unfold turned_dims. pose proof (index_where_spec (fun d => is_lon (gd_std d)) dims) as H. destruct (index_where _ dims) as [li|]; auto. destruct H as (pre & g & post & -> & <- & _ & _).
  rewrite firstn_app, Nat.sub_diag, firstn_all, app_nth2, Nat.sub_diag by lia. cbn [firstn nth]. rewrite app_nil_r. replace (skipn (S (length pre)) (pre ++ g :: post)) with post.
  2: { change (S (length pre)) with (1 + length pre). rewrite Nat.add_comm. rewrite <- (app_nil_l post) at 1. clear. induction pre; cbn; auto. }
  rewrite !map_app. reflexivity.
Qed.

(** ** the positions of a sample on the rotated dimensions: every coordinate as it is, the longitude on its meridian and within the range *)
Definition serves (low : Q) (s : udata) (i : nat) (g : gdim) (t' : Q) : Prop :=
  exists c x, In c (u_coords s) /\ c_std c = gd_std g /\ nth i (c_points c) None = Some x /\ (if is_lon (gd_std g) then same_meridian x t' /\ in_range low t' else t' = x).
Definition place_of (s : udata) (i : nat) (g : gdim) (x' : Q) : Prop :=
  exists c x, In c (u_coords s) /\ c_std c = gd_std g /\ nth i (c_points c) None = Some x /\ ((the_longitude g /\ placed (gd_dim g) x x') \/ (~ the_longitude g /\ x' = x)).
Lemma same_dims_carry low s i gap dims : Forall (fun g => is_lon (gd_std g) = false) dims -> proper_dims (map gd_dim dims) -> forall ts, Forall2 (serves low s i) dims ts ->
  all_carry gap (map gd_dim dims) (map gd_dim dims) (repeat (fun i => i) (length dims)) (map (place_of s i) dims) ts.
Proof.
  induction dims as [|g dims IH]; intros HL HP ts HT; inversion HT as [|? t ? ts' Ht HT']; subst; cbn; constructor.
  - inversion HL; subst. inversion HP as [|? ? [_ G] _]; subst. apply carries_same; auto. destruct Ht as (c & x & Hc & Es & Hx & Ht). rewrite H1 in Ht. subst t. exists c, x. repeat (split; auto). right. split; auto.
    intros E. unfold the_longitude in E. apply is_lon_spec in E. congruence.
  - inversion HL; subst. inversion HP; subst. apply IH; auto.
Qed.
Lemma F2inv {A B} (R : A -> B -> Prop) a l m : Forall2 R (a :: l) m -> exists b m', m = b :: m' /\ R a b /\ Forall2 R l m'.
Proof. intros H. inversion H; subst. eauto. Qed.
Lemma Finv {A} (R : A -> Prop) a l : Forall R (a :: l) -> R a /\ Forall R l.
Proof. intros H. inversion H; subst. auto. Qed.
Theorem dims_carry low s i g ts : convention s low -> ~ In (Some (lit "longitude")) (g_aux g) -> distinct_dims (g_dims g) -> proper_dims (map gd_dim (g_dims g)) -> Forall (fitting_longitudes s) (g_dims g) -> Forall2 (serves low s i) (g_dims g) ts ->
  exists g', rotate low g = Ok g' /\ g_dims g' = turned_dims low (g_dims g) /\ g_aux g' = g_aux g /\ proper_dims (map gd_dim (g_dims g')) /\
  exists phis, all_carry (in_the_gap (g_dims g) s i) (map gd_dim (g_dims g)) (map gd_dim (g_dims g')) phis (map (place_of s i) (g_dims g)) ts /\
    (forall e, length e = length (g_dims g) -> g_values g' e = g_values g (apply_all phis e)).
Proof.
  intros HC HA HD HP HF HT. destruct (rotate_dims low g HA) as (g' & ER & ED & EA). exists g'. split; auto. split; auto. split; auto.
  revert ER ED. unfold rotate, turned_dims. pose proof (index_where_spec (fun d => is_lon (gd_std d)) (g_dims g)) as H. destruct (index_where _ (g_dims g)) as [li|].
  2: { intros ER ED. rewrite ED. split; auto. exists (repeat (fun i => i) (length (g_dims g))). split; [eapply same_dims_carry; eauto|]. intros e He. rewrite apply_ids. destruct (existsb is_lon (g_aux g)); [discriminate|]. injection ER as <-. reflexivity. }
  destruct H as (pre & gl & post & E & <- & HL & HPre). intros ER ED.
  assert (HPost : Forall (fun y => is_lon (gd_std y) = false) post).
  { apply Forall_forall. intros y Hy. destruct (is_lon (gd_std y)) eqn:Y; auto. exfalso. apply In_nth_error in Hy. destruct Hy as (j & Hj). assert (length pre = length pre + S j); [|lia]. eapply HD.
    - rewrite E, nth_error_app2, Nat.sub_diag by lia. reflexivity.
    - rewrite E, nth_error_app2 by lia. replace (length pre + S j - length pre) with (S j) by lia. exact Hj.
    - apply is_lon_spec in HL, Y. congruence. }
  assert (EN : nth (length pre) (g_dims g) no_dim = gl) by (rewrite E, app_nth2, Nat.sub_diag by lia; reflexivity).
  assert (EF : firstn (length pre) (g_dims g) = pre) by (rewrite E, firstn_app, Nat.sub_diag, firstn_all; cbn; apply app_nil_r).
  assert (ES : skipn (S (length pre)) (g_dims g) = post) by (rewrite E; clear; induction pre; cbn; auto).
  rewrite EN, EF, ES in *. set (d := gd_dim gl) in *. set (ax := set_longitude_range (mkAxis (d_points d) None (seq 0 (length (d_points d)))) low) in *.
  rewrite E in HT, HP. apply Forall2_app_inv_l in HT. destruct HT as (ts1 & ts2 & T1 & T2 & ->). apply F2inv in T2. destruct T2 as (tl & ts3 & Ets & TL & T3). subst ts2.
  unfold proper_dims in HP. rewrite map_app in HP. cbn [map] in HP. apply Forall_app in HP. destruct HP as [HP1 HP2]. apply Finv in HP2. destruct HP2 as [[HI HG] HP3]. fold d in HI, HG.
  assert (CL : carries d (mkDim (lon_points ax) (d_circular d)) (fun j => nth j (lon_columns ax) 0) (place_of s i gl) (in_the_gap (g_dims g) s i) tl).
  { destruct TL as (c & x & Hc & Es & Hx & Ht). rewrite HL in Ht. destruct Ht as [SM RT]. apply is_lon_spec in HL. assert (Hg : In gl (g_dims g)) by (rewrite E; apply in_or_app; right; left; auto).
    assert (PL : forall t, placed d x t -> place_of s i gl t) by (intros t Ht; exists c, x; repeat (split; auto); left; split; auto).
    rewrite Forall_forall in HF. specialize (HF gl Hg HL low HC). fold d in HF.
    assert (ED2 : d = mkDim (d_points d) (d_circular d)) by (destruct d; reflexivity).
    destruct HF as [[CI HR]|[CI HR]].
    - rewrite CI. pose proof (circular_carries (d_points d) x low tl) as K. cbv zeta in K. rewrite <- CI, <- ED2, CI in K. specialize (K HI HG HR SM RT). fold ax in K. destruct K as [K1 K2 K3 K4]. split; auto.
      + intros c' Ec. destruct (K3 c' Ec) as (t & cc & Pt & T). exists t, cc. auto.
      + intros W. destruct (K4 W) as (t & Pt & G). exists t. split; auto. destruct G as [G|G]; auto. right. exists gl, c, x, low. repeat (split; [solve [auto | congruence]|]). exact G.
    - rewrite CI. pose proof (regional_carries (d_points d) x low tl (in_the_gap (g_dims g) s i)) as K. cbv zeta in K. rewrite <- CI, <- ED2, CI in K. specialize (K HI HG HR SM RT). fold ax in K. destruct K as [K1 K2 K3 K4]. split; auto.
      + intros c' Ec. destruct (K3 c' Ec) as (t & cc & Pt & T). exists t, cc. auto.
      + intros W. destruct (K4 W) as (t & Pt & G). exists t. auto. }
  assert (HI' : increasing (lon_points ax)).
  { clear -CL HI HG. destruct (cy_good' _ _ _ _ _ _ CL) as [G _]. unfold continued in G. cbn in G. destruct (d_circular d); auto. apply ss_app_inv in G. apply G. }
  split.
  - rewrite ED. unfold proper_dims. rewrite map_app. cbn [map]. apply Forall_app. split; auto. constructor; auto. unfold turned. rewrite ?EN. fold d ax. cbn [gd_dim d_points]. split; auto. apply (cy_good' _ _ _ _ _ _ CL).
  - exists (repeat (fun i => i) (length pre) ++ (fun j => nth j (lon_columns ax) 0) :: repeat (fun i => i) (length post)). split.
    + rewrite ED. rewrite E at 2 3. rewrite !map_app. cbn [map]. apply all_carry_app; [eapply same_dims_carry; eauto|]. constructor; [|eapply same_dims_carry; eauto]. unfold turned. rewrite ?EN. fold d ax. cbn [gd_dim]. exact CL.
    + intros e He. rewrite apply_one by (rewrite He, E, app_length; cbn; lia). injection ER as <-. reflexivity.
Qed.
