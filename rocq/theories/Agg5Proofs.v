(** Proofs for C35: every point is counted once; lists of variables. *)
From Verif Require Import Base PyStr QBase LonModel LonSpec LonProofs DateModel DateProofs FileListModel FileListProofs UngrModel UngrSpec UngrProofs SubsetModel SubsetSpec SubsetProofs Subset2Proofs GridIndexModel GridIndexSpec GridIndexProofs IndexProofs UtilProofs AggModel AggSpec AggProofs Agg2Proofs Agg3Proofs Agg4Proofs.
From Coq Require Import Lqa Lia.
Open Scope nat_scope.
Notation length := List.length.

Lemma in_cell_fun g k k' x : fine g -> in_cell g k x -> in_cell g k' x -> k = k'.
Proof. destruct g as [a|m]; cbn [fine in_cell]; [|congruence]. intros [G _] H H'. apply Nat2Z.inj. eapply contains_fun; eauto. Qed.
Lemma located_fun c g k k' x : fine g -> located_in c g k x -> located_in c g k' x -> k = k'.
Proof.
  intros F [A B] [A' B']. assert (D : is_lon_coord c \/ ~ is_lon_coord c).
  { unfold is_lon_coord. destruct (std_eqb (c_std c) (Some (lit "longitude"))) eqn:E; [left; apply std_eqb_eq; auto|right; intros C; apply std_eqb_eq in C; congruence]. }
  destruct D as [L|L]; [|eapply in_cell_fun; eauto]. destruct (A L) as (low & y & R & SM & IR & I), (A' L) as (low' & y' & R' & SM' & IR' & I'). assert (low = low') by (eapply range_of_unique; eauto). subst low'.
  apply (in_cell_fun g k k' y'); auto. apply (in_cell_proper g k y); auto. apply (in_range_unique low); auto. destruct SM as (k1 & E1), SM' as (k2 & E2). exists (k1 - k2)%Z. rewrite E1, E2. unfold Z.sub. rewrite inject_Z_plus, inject_Z_opp. ring.
Qed.
Lemma lon_dec c : is_lon_coord c \/ ~ is_lon_coord c.
Proof. unfold is_lon_coord. destruct (std_eqb (c_std c) (Some (lit "longitude"))) eqn:E; [left; apply std_eqb_eq; auto|right; intros C; apply std_eqb_eq in C; congruence]. Qed.

Lemma nth_error_same {A} (l : list A) : forall m, (forall j, nth_error l j = nth_error m j) -> l = m.
Proof.
  induction l as [|x l IH]; intros [|y m] H; auto; [specialize (H 0); discriminate|specialize (H 0); discriminate|]. f_equal; [specialize (H 0); cbn in H; congruence|]. apply IH. intros j. apply (H (S j)).
Qed.
Lemma nodup_same {A} (l m : list A) : NoDup l -> NoDup m -> (forall x, In x l <-> In x m) -> length l = length m.
Proof. intros H H' E. apply Permutation.Permutation_length. apply NoDup_Permutation; auto. Qed.
Lemma unmasked_number d : exists idxs, NoDup idxs /\ (forall i, In i idxs <-> unmasked d i) /\ length idxs = number_unmasked d.
Proof.
  exists (filter (fun i => negb (is_missing (nth i (u_values d) None))) (seq 0 (length (u_values d)))). split; [apply NoDup_filter, seq_NoDup|]. split.
  - intros i. rewrite filter_In, in_seq. unfold unmasked. destruct (nth i (u_values d) None); cbn; intuition (try discriminate; lia).
  - unfold number_unmasked. induction (u_values d) as [|o l IH] using rev_ind; [reflexivity|]. rewrite app_length. cbn [length]. rewrite Nat.add_1_r, seq_S, !filter_app, !app_length. f_equal.
    + rewrite <- IH. f_equal. apply filter_ext_in. intros i Hi. apply in_seq in Hi. rewrite app_nth1 by lia. reflexivity.
    + cbn [filter]. rewrite Nat.add_0_l, app_nth2, Nat.sub_diag by lia. cbn. destruct o; reflexivity.
Qed.
Section Counting.
Context {V : Type} (kernel : list Q -> list (option V)) (d : udata) (out : aggregated (V := V)).
Hypothesis (HA : aligned d) (HC : complete d) (SD : standard_dims d (ag_dims out)) (LX : length (ag_axes out) = length (ag_dims out)) (FX : Forall fine (ag_axes out)).

Lemma value_at ci c i : nth_error (u_coords d) ci = Some c -> i < length (u_values d) -> exists x, nth i (c_points c) None = Some x.
Proof.
  intros Hc Hi. assert (LC : length (c_points c) = length (u_values d)) by (unfold aligned in HA; rewrite Forall_forall in HA; apply HA; eapply nth_error_In; eauto).
  destruct (nth i (c_points c) None) as [x|] eqn:E; [eauto|]. exfalso. apply (complete_at d ci c i HA HC Hc); auto. lia.
Qed.
Lemma one_cell i c1 c2 : i < length (u_values d) -> a_cell out c1 -> a_cell out c2 -> point_in d out i c1 -> point_in d out i c2 -> c1 = c2.
Proof.
  intros Hi A1 A2 P1 P2. pose proof (Forall2_length _ _ _ A1) as L1. pose proof (Forall2_length _ _ _ A2) as L2. apply nth_error_same. intros j.
  destruct (nth_error c1 j) as [k1|] eqn:E1.
  - assert (Hj : j < length c1) by (apply nth_error_Some; congruence). destruct (nth_error c2 j) as [k2|] eqn:E2; [|apply nth_error_None in E2; lia]. f_equal.
    destruct (nth_error (ag_axes out) j) as [g|] eqn:Eg; [|apply nth_error_None in Eg; lia]. destruct (nth_error (ag_dims out) j) as [ci|] eqn:Ed; [|apply nth_error_None in Ed; lia].
    assert (HI : In ci (ag_dims out)) by (eapply nth_error_In; eauto). apply SD in HI. destruct HI as (c & Hc & _). destruct (value_at ci c i Hc Hi) as (x & Hx).
    apply (located_fun c g k1 k2 x); [rewrite Forall_forall in FX; apply FX; eapply nth_error_In; eauto|eapply P1; eauto|eapply P2; eauto].
  - apply nth_error_None in E1. symmetry. apply nth_error_None. lia.
Qed.
Hypothesis RV : right_values kernel d out.
Theorem counted count cells : counts kernel count -> every_cell out cells ->
  exists idxs, NoDup idxs /\ (forall i, In i idxs <-> unmasked d i /\ exists cell, a_cell out cell /\ point_in d out i cell) /\ total count out cells = length idxs.
Proof.
  intros [C0 C1] [ND HE].
  assert (G : forall l, NoDup l -> (forall c, In c l -> a_cell out c) -> exists idxs, NoDup idxs /\ (forall i, In i idxs <-> unmasked d i /\ exists cell, In cell l /\ point_in d out i cell) /\ total count out l = length idxs).
  { induction l as [|c l IH]; intros N HA'; [exists []; split; [constructor|]; split; [|reflexivity]; intros i; split; [contradiction|intros (_ & c & [] & _)]|].
    apply NoDup_cons_iff in N. destruct N as [NI N]. destruct IH as (l2 & N2 & M2 & T2); [auto|intros; apply HA'; right; auto|]. destruct (RV c) as (l1 & vs & N1 & VA & M1 & E1); [apply HA'; left; auto|].
    exists (l1 ++ l2). split; [|split].
    - assert (DJ : forall i, In i l1 -> In i l2 -> False).
      { intros i I1 I2. apply M1 in I1. apply M2 in I2. destruct I1 as (A & B & P), I2 as (_ & c' & I & P'). apply NI. rewrite (one_cell i c c'); auto; [apply HA'; left; auto|apply HA'; right; auto]. }
      clear - N1 N2 DJ. induction l1 as [|x l1 IH]; auto. cbn. apply NoDup_cons_iff in N1. destruct N1 as [X N1]. apply NoDup_cons_iff. split; [|apply IH; auto; intros i H; apply DJ; right; auto]. intros H. apply in_app_or in H. destruct H; [auto|]. apply (DJ x); [left; auto|auto].
    - intros i. rewrite in_app_iff, M1, M2. unfold unmasked. split.
      + intros [(A & B & P)|(A & c' & I & P)]; [split; auto; exists c; split; [left|]; auto|split; auto; exists c'; split; [right|]; auto].
      + intros (A & c' & [<-|I] & P); [left; tauto|right; eauto].
    - unfold total. cbn [map fold_right]. fold (total count out l). rewrite T2, app_length. f_equal. rewrite E1. destruct l1 as [|i l1]; [apply C0|]. inversion VA; subst. rewrite C1 by discriminate. cbn. f_equal. symmetry. eapply Forall2_length. eauto. }
  destruct (G cells ND) as (idxs & N & M & T); [apply HE|]. exists idxs. split; auto. split; auto. intros i. rewrite M. split; intros (A & c & I & P); split; auto; exists c; split; auto; apply HE; auto.
Qed.
Hypothesis (HLon : usual_longitudes d).
Lemma some_cell rs i : right_dimensions d rs out -> Forall (fun kr => upwards (snd kr)) rs -> usual_ranges d rs -> i < length (u_values d) -> inside d rs i -> exists cell, a_cell out cell /\ point_in d out i cell.
Proof.
  intros (_ & LB & RD) HU UR Hi IN.
  assert (EX : forall j ci g c x, nth_error (ag_dims out) j = Some ci -> nth_error (ag_axes out) j = Some g -> nth_error (u_coords d) ci = Some c -> nth i (c_points c) None = Some x -> exists k, k < size_of g /\ located_in c g k x).
  { intros j ci g c x Hj Hg Hc Hx. assert (Lj : j < length (ag_dims out)) by (apply nth_error_Some; congruence). destruct (nth_error (ag_bounds out) j) as [b|] eqn:Eb; [|apply nth_error_None in Eb; lia].
    destruct (RD j ci g b c Hj Hg Eb Hc) as [R1 R2]. assert (Hin : In c (u_coords d)) by (eapply nth_error_In; eauto).
    (* the range *)
    assert (RG : exists low, range_of g low /\ (low = -(180) \/ low = 0)%Q).
    { unfold range_of. destruct (existsb (fun p => Qltb p 0) (gpoints g)) eqn:E.
      - apply existsb_exists in E. destruct E as (p & Hp & H). exists (-(180))%Q. split; auto. left. split; auto. exists p. split; auto. destruct (Qltb_spec p 0); congruence.
      - exists 0%Q. split; auto. right. split; auto. intros p Hp. destruct (Qlt_le_dec p 0) as [H|H]; auto. exfalso. assert (X : existsb (fun p => Qltb p 0) (gpoints g) = true) by (apply existsb_exists; exists p; split; auto; destruct (Qltb_spec p 0); auto; lra). congruence. }
    destruct RG as (low & RG & LV).
    assert (WR : is_lon_coord c -> exists y, same_meridian x y /\ in_range low y).
    { intros L. exists (view_wrap_lon low x). split; [apply view_wrap_same|]. apply view_wrap_range. specialize (HLon c i x Hin L Hx). destruct LV as [->| ->]; lra. }
    destruct (in_dec Nat.eq_dec ci (map fst rs)) as [I|I].
    - apply in_map_iff in I. destruct I as ([ci' r] & E & HI). cbn in E. subst ci'. destruct (R1 r HI) as (a & -> & CF & _). destruct (UR ci r c HI Hc) as [UL UY]. destruct (IN ci r c x HI Hc Hx) as [IL IO].
      assert (U : upwards r) by (rewrite Forall_forall in HU; apply (HU _ HI)). destruct U as [U1 U2].
      assert (COV : forall v, (rq_start r <= v < rq_stop r)%Q -> exists k, k < length (ax_bounds a) /\ contains a (Z.of_nat k) v).
      { intros v Hv. assert (X : exists z, contains a z v).
        { destruct (Qlt_le_dec (rq_step r) (rq_stop r - rq_start r)) as [W|W].
          - destruct (str_eq_dec (c_name c) (lit "latitude")) as [LN|LN].
            + destruct (UY LN) as [Y1 Y2]. destruct (forallb (fun p => Qleb (-(90)) p && Qleb p 90) (ax_points a)) eqn:CL.
              * destruct (cf_latitude _ _ _ CF W) as (u & _ & _ & CV & _).
                { split; auto. intros p Hp. rewrite forallb_forall in CL. specialize (CL p Hp). apply andb_true_iff in CL. rewrite !Qleb_le in CL. auto. }
                apply CV. destruct (Q.max_spec (rq_start r) (-(90))) as [[A B]|[A B]], (Q.min_spec (rq_stop r) 90) as [[C D]|[C D]]; rewrite B, D; lra.
              * destruct (cf_many _ _ _ CF W) as (u & _ & _ & _ & CV); [|apply CV; auto]. intros [_ C]. rewrite <- not_true_iff_false in CL. apply CL. apply forallb_forall. intros p Hp. specialize (C p Hp). apply andb_true_iff. rewrite !Qleb_le. auto.
            + destruct (cf_many _ _ _ CF W) as (u & _ & _ & _ & CV); [intros [C _]; contradiction|]. apply CV; auto.
          - destruct (cf_single _ _ _ CF W) as (lo & hi & EB & E1 & E2). exists 0%Z. split; [lia|]. exists (lo, hi). rewrite EB. split; [reflexivity|]. cbn [fst snd].
            destruct (Q.min_spec lo hi) as [[A B]|[A B]], (Q.max_spec lo hi) as [[C D]|[C D]]; rewrite B, D; lra. }
        destruct X as (z & X). pose proof (contains_range _ _ _ X) as RZ. exists (Z.to_nat z). rewrite Z2Nat.id by lia. split; auto. lia. }
      cbn [size_of]. destruct (lon_dec c) as [L|L].
      + destruct (IL L) as (y & SM & HY). destruct (COV y HY) as (k & Hk & Ck). exists k. split; auto. split; [|intros N; contradiction]. intros _. exists low, y. split; auto. split; auto. split; auto.
        destruct (UL L) as [[F1 F2]|(F1 & F2 & F3)]; unfold in_range; destruct RG as [[(p & P1 & P2) ->]|[P ->]]; try lra.
        * exfalso. cbn [gpoints] in P1. apply In_nth_error in P1. destruct P1 as (n & P1). apply (cf_points _ _ _ CF) in P1. pose proof (half (rq_step r)). assert (0 <= N2Q n * rq_step r)%Q by (rewrite <- (at0 (rq_step r)); apply mono; auto; lia). unfold N2Q in *. lra.
        * exfalso. destruct (ax_points a) as [|p ps] eqn:EP; [destruct CF as [[C1 C2] _ _ _ _]; rewrite EP in C2; destruct (ax_bounds a); [congruence|discriminate]|].
          pose proof (cf_points _ _ _ CF 0%nat p) as E0. rewrite EP in E0. specialize (E0 eq_refl). pose proof (at0 (rq_step r)). unfold N2Q in *. cbn [gpoints] in P. rewrite EP in P. specialize (P p (or_introl eq_refl)). lra.
      + destruct (COV x (IO L)) as (k & Hk & Ck). exists k. split; auto. split; [intros; contradiction|]. auto.
    - destruct (R2 I) as ((m & ->) & _). exists 0%nat. split; [cbn; lia|]. split; [|reflexivity]. intros L. destruct (WR L) as (y & SM & IR). exists low, y. split; auto. split; auto. split; auto. reflexivity. }
  assert (G : forall dims axes, length axes = length dims -> (forall j ci g c x, nth_error dims j = Some ci -> nth_error axes j = Some g -> nth_error (u_coords d) ci = Some c -> nth i (c_points c) None = Some x -> exists k, k < size_of g /\ located_in c g k x) ->
    (forall ci, In ci dims -> exists c, nth_error (u_coords d) ci = Some c) ->
    exists cell, Forall2 (fun k g => k < size_of g) cell axes /\ forall j ci g k c x, nth_error dims j = Some ci -> nth_error axes j = Some g -> nth_error cell j = Some k -> nth_error (u_coords d) ci = Some c -> nth i (c_points c) None = Some x -> located_in c g k x).
  { induction dims as [|ci dims IH]; intros [|g axes] L H HD; try discriminate; [exists []; split; [constructor|]; intros [|j]; discriminate|]. destruct (HD ci) as (c & Hc); [left; auto|]. destruct (value_at ci c i Hc Hi) as (x & Hx).
    destruct (H 0 ci g c x eq_refl eq_refl Hc Hx) as (k & K1 & K2). destruct (IH axes) as (cell & C1 & C2); [cbn in L; lia|intros j; apply (H (S j))|intros; apply HD; right; auto|].
    exists (k :: cell). split; [constructor; auto|]. intros [|j] ci' g' k' c' x'; cbn; [|apply C2]. intros [= <-] [= <-] [= <-] Hc' Hx'. assert (c' = c) by congruence. subst. assert (x' = x) by congruence. subst. auto. }
  destruct (G (ag_dims out) (ag_axes out) LX EX) as (cell & C1 & C2); [intros ci H; apply SD in H; destruct H as (c & Hc & _); eauto|]. exists cell. split; auto.
Qed.
End Counting.

Section All.
Context {V : Type} (kernel : list Q -> list (option V)) (argsort : list Z -> list nat).
Hypothesis (HP : forall l, is_argsort l (argsort l)).
Theorem aggregate_spec d gs rs : proper d -> all_located d -> rows d <> [] -> has_latitude d -> usual_longitudes d -> Forall2 (asks (u_coords d)) gs rs -> NoDup (map fst rs) -> Forall (fun kr => upwards (snd kr)) rs ->
  exists out, aggregate kernel argsort d gs = Ok out /\ standard_dims d (ag_dims out) /\ right_dimensions d rs out /\ right_values kernel d out.
Proof. intros H1 H2 H3 H4 H5 H6 H7 H8. destruct (aggregate_core kernel argsort HP d gs rs H1 H2 H3 H4 H5 H6 H7 H8) as (out & E & A & B & C & _). eauto. Qed.
Theorem aggregate_counted d gs rs count : counts kernel count -> proper d -> all_located d -> rows d <> [] -> has_latitude d -> usual_longitudes d -> Forall2 (asks (u_coords d)) gs rs -> NoDup (map fst rs) -> Forall (fun kr => upwards (snd kr)) rs ->
  exists out, aggregate kernel argsort d gs = Ok out /\ forall cells, every_cell out cells ->
    exists idxs, NoDup idxs /\ (forall i, In i idxs <-> unmasked d i /\ exists cell, a_cell out cell /\ point_in d out i cell) /\ total count out cells = length idxs.
Proof.
  intros HCt H1 H2 H3 H4 H5 H6 H7 H8. destruct (aggregate_core kernel argsort HP d gs rs H1 H2 H3 H4 H5 H6 H7 H8) as (out & E & A & (B & _) & C & D). exists out. split; auto. intros cells HE.
  apply (counted kernel d out (proj1 H1) H2 A B D C count cells HCt HE).
Qed.
Theorem aggregate_conserves d gs rs count : counts kernel count -> proper d -> all_located d -> rows d <> [] -> has_latitude d -> usual_longitudes d -> Forall2 (asks (u_coords d)) gs rs -> NoDup (map fst rs) -> Forall (fun kr => upwards (snd kr)) rs ->
  usual_ranges d rs -> (forall i, unmasked d i -> inside d rs i) ->
  exists out, aggregate kernel argsort d gs = Ok out /\ forall cells, every_cell out cells -> total count out cells = number_unmasked d.
Proof.
  intros HCt H1 H2 H3 H4 H5 H6 H7 H8 UR IN. destruct (aggregate_core kernel argsort HP d gs rs H1 H2 H3 H4 H5 H6 H7 H8) as (out & E & A & B & C & D). exists out. split; auto. intros cells HE.
  destruct (counted kernel d out (proj1 H1) H2 A (proj1 B) D C count cells HCt HE) as (l1 & N1 & M1 & T). destruct (unmasked_number d) as (l2 & N2 & M2 & L2). rewrite T, <- L2.
  apply nodup_same; auto. intros i. rewrite M1, M2. split; [tauto|]. intros U. split; auto. apply (some_cell d out (proj1 H1) H2 A (proj1 B) H5 rs i B H8 UR); [apply U|auto].
Qed.
(** lists *)
Lemma post_process_coords_same d0 d d0' d' : same_coordinates d0 d -> post_process d0 = Ok d0' -> post_process d = Ok d' -> u_coords d' = u_coords d0'.
Proof.
  intros [E L]. unfold post_process. rewrite E, L. destruct (missing_mask (length (u_values d0)) (u_coords d0)) as [m|]; cbn [bind]; [|discriminate]. destruct (existsb (fun b => b) m); intros [= <-] [= <-]; cbn; auto.
Qed.
Theorem list_separately d0 ds gs : aligned d0 -> (forall d, In d (d0 :: ds) -> same_coordinates d0 d) -> aggregate_list kernel argsort (d0 :: ds) gs = map_res (fun d => aggregate kernel argsort d gs) (d0 :: ds).
Proof.
  intros HA HS. unfold aggregate_list.
  assert (AL : forall d, In d (d0 :: ds) -> exists d', post_process d = Ok d').
  { intros d Hd. destruct (HS d Hd) as [E L]. assert (A : aligned d) by (unfold aligned; rewrite E, L; exact HA). destruct (post_process_spec d A) as (d' & E' & _). eauto. }
  destruct (map_res_all post_process (d0 :: ds) AL) as (r & E & F). rewrite E. cbn [bind]. inversion F as [|? d0' ? ds' E0 F']; subst.
  assert (CS : forall x y, In x (d0 :: ds) -> post_process x = Ok y -> u_coords y = u_coords d0') by (intros x y Hx Hy; eapply post_process_coords_same; eauto).
  destruct (grid_spec (u_coords d0') gs) as [spec|e] eqn:EG; cbn [bind]; [|cbn [map_res]; unfold aggregate at 1; rewrite E0; cbn [bind]; rewrite EG; reflexivity].
  destruct (aggregation_grid (u_coords d0') spec) as [grid|e] eqn:EA; cbn [bind]; [|cbn [map_res]; unfold aggregate at 1; rewrite E0; cbn [bind]; rewrite EG; cbn [bind]; rewrite EA; reflexivity].
  clear E E0 F' HS AL. induction F as [|x y l l' Hxy F IH]; [reflexivity|]. cbn [map_res].
  assert (EX : aggregate kernel argsort x gs = collocate_grid kernel argsort (u_coords d0') grid y).
  { unfold aggregate. rewrite Hxy. cbn [bind]. rewrite (CS x y) by (auto; left; auto). rewrite EG. cbn [bind]. rewrite EA. reflexivity. }
  rewrite EX. destruct (collocate_grid kernel argsort (u_coords d0') grid y); cbn [bind]; auto. rewrite IH; auto. intros x0 y0 Hx0 Hy0. apply (CS x0 y0); auto. right. auto.
Qed.
End All.
Theorem grid_cells c r : upwards r -> exists a, partially_collapsed c r = Ok (Cells a) /\ cells_for c r a.
Proof. intros [H1 H2]. destruct (partial_cells c r H1 H2) as (a & E & CF & _). eauto. Qed.
Theorem empty_range c r : (rq_stop r <= rq_start r)%Q -> (0 < rq_step r)%Q -> partially_collapsed c r = Raises ValueError.
Proof. destruct r as [s e d]. cbn [rq_start rq_stop rq_step]. apply no_cells. Qed.
(** an argsort *)
Fixpoint insert_pos (key : nat -> Z) (i : nat) (l : list nat) : list nat := match l with [] => [i] | j :: r => if (key i <=? key j)%Z then i :: l else j :: insert_pos key i r end.
Definition insertion_argsort (cells : list Z) : list nat := fold_right (insert_pos (fun i => nth i cells 0%Z)) [] (seq 0 (length cells)).
Lemma insert_pos_perm key i l : Permutation.Permutation (insert_pos key i l) (i :: l).
Proof. induction l as [|j l IH]; cbn [insert_pos]; auto. destruct (key i <=? key j)%Z; auto. rewrite IH. constructor. Qed.
Lemma insert_pos_sorted key i l : StronglySorted Z.le (map key l) -> StronglySorted Z.le (map key (insert_pos key i l)).
Proof.
  induction l as [|j l IH]; cbn [insert_pos]; intros S; [repeat constructor|]. cbn [map] in S. inversion S as [|? ? S' F]; subst. destruct (key i <=? key j)%Z eqn:E.
  - cbn [map]. apply Z.leb_le in E. constructor; [constructor; auto|]. constructor; auto. eapply Forall_impl; [|exact F]. cbn. intros; lia.
  - apply Z.leb_gt in E. cbn [map]. constructor; [apply IH; auto|]. rewrite Forall_map, Forall_forall in *. intros x Hx. apply (Permutation.Permutation_in _ (insert_pos_perm key i l)) in Hx. destruct Hx as [<-|Hx]; [lia|auto].
Qed.
Lemma insertion_argsort_ok l : is_argsort l (insertion_argsort l).
Proof.
  unfold is_argsort, insertion_argsort. assert (G : forall s, Permutation.Permutation (fold_right (insert_pos (fun i => nth i l 0%Z)) [] s) s /\ StronglySorted Z.le (map (fun i => nth i l 0%Z) (fold_right (insert_pos (fun i => nth i l 0%Z)) [] s))).
  { induction s as [|i s [P S]]; [split; constructor|]. cbn [fold_right]. split; [rewrite insert_pos_perm, P; auto|apply insert_pos_sorted; auto]. }
  apply G.
Qed.
