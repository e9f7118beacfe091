(** The collocator (C25), distance limits (C23) and column order (C22). *)
From Verif Require Import Base QBase LonModel LonSpec LonProofs KDModel KDSpec KD4Proofs HavModel HavSpec HavProofs Hav3Proofs Hav4Proofs Hav5Proofs DateModel DateProofs ColModel ColSpec ColProofs Col2Proofs.
From Coq Require Import Reals Qreals Lra.
Open Scope R_scope.

(** ** Longitudes *)
Lemma fix_range_spec lows rows r : fix_range lows rows = Ok r -> Forall2 same_place rows r.
Proof.
  unfold fix_range. destruct (find_longitude_range _) as [base|]; [|discriminate]. cbn [bind]. intros E. injection E as <-.
  induction rows as [|p rows IH]; simpl; constructor; auto. unfold same_place, set_lon. cbn. split; auto. split; [apply wrap_lon_same|repeat split; auto].
Qed.
Lemma fix_range_ok lows rows : lows <> [] -> exists r, fix_range lows rows = Ok r.
Proof. intros H. destruct lows; [congruence|]. unfold fix_range. cbn [map find_longitude_range bind]. eauto. Qed.
Lemma same_place_missing p q : same_place p q -> is_missing q = is_missing p.
Proof. intros (_ & _ & _ & _ & _ & E). unfold is_missing. rewrite E. auto. Qed.
Lemma dropna_same l m : Forall2 same_place l m -> Forall2 same_place (dropna l) (dropna m).
Proof.
  induction 1 as [|p q l m H F IH]; simpl; auto. rewrite (same_place_missing p q H). destruct (negb (is_missing p)); auto.
Qed.
Lemma forall2_length {A B} (P : A -> B -> Prop) l m : Forall2 P l m -> length m = length l.
Proof. induction 1; simpl; auto. Qed.

(** ** Filling in *)
Lemma set_nth_length {A} i (v : A) l : length (set_nth i v l) = length l.
Proof. revert i. induction l as [|x l IH]; intros [|i]; simpl; auto. Qed.
Lemma nth_error_set_nth {A} (l : list A) i v j : nth_error (set_nth i v l) j = if (j =? i)%nat then (if (i <? length l)%nat then Some v else None) else nth_error l j.
Proof.
  revert i j. induction l as [|x l IH]; intros i j; simpl.
  - destruct i, j; simpl; auto; destruct (j =? i)%nat; auto.
  - destruct i as [|i], j as [|j]; cbn [set_nth nth_error Nat.eqb]; auto. rewrite IH. reflexivity.
Qed.
(** the value of variable j at sample i *)
Definition at2 (values : list (list (option R))) (j i : nat) : option (option R) := match nth_error values j with Some v => nth_error v i | None => None end.
Definition shaped (values : list (list (option R))) (size n : nat) : Prop := length values = size /\ Forall (fun v => length v = n) values.
Lemma set_column_shaped values size n i c : shaped values size n -> length c = size -> shaped (set_column values i c) size n.
Proof.
  intros [L F] Lc. unfold set_column, shaped. rewrite map_length, combine_length. split; [lia|]. rewrite Forall_map, Forall_forall. intros [v x] Hin. cbn [fst snd]. rewrite set_nth_length.
  rewrite Forall_forall in F. apply F. eapply in_combine_l; eauto.
Qed.
Lemma nth_error_combine {A B} (l : list A) (m : list B) j : nth_error (combine l m) j = match nth_error l j, nth_error m j with Some a, Some b => Some (a, b) | _, _ => None end.
Proof. revert m j. induction l as [|a l IH]; intros [|b m] [|j]; simpl; auto; try destruct (nth_error l j); auto. Qed.
Lemma at2_set_column values size n i c j i' : shaped values size n -> length c = size -> (j < size)%nat -> (i < n)%nat ->
  at2 (set_column values i c) j i' = if (i' =? i)%nat then nth_error c j else at2 values j i'.
Proof.
  intros [L F] Lc Hj Hi. unfold at2, set_column. rewrite nth_error_map, nth_error_combine.
  destruct (nth_error values j) as [v|] eqn:Ev; [|apply nth_error_None in Ev; lia]. destruct (nth_error c j) as [x|] eqn:Ec; [|apply nth_error_None in Ec; lia].
  cbn [option_map fst snd]. rewrite nth_error_set_nth. rewrite Forall_forall in F. rewrite (F v) by (eapply nth_error_In; eauto). destruct (Nat.ltb_spec i n); [|lia]. reflexivity.
Qed.
Lemma fill_values_spec k size n : kernel_ok k size -> forall l values, shaped values size n -> NoDup (map (fun e => fst (fst e)) l) -> Forall (fun e => (fst (fst e) < n)%nat) l ->
  exists r, fill_values k l values = Ok r /\ shaped r size n /\
    (forall i p d j, In (i, p, d) l -> (j < size)%nat -> (forall j, (j < size)%nat -> at2 values j i = Some None) -> at2 r j i = Some (outcome (k p d) j)) /\
    (forall i j, ~ In i (map (fun e => fst (fst e)) l) -> (j < size)%nat -> at2 r j i = at2 values j i).
Proof.
  intros HK. induction l as [|[[i p] d] l IH]; intros values HS ND HF.
  - exists values. split; [reflexivity|]. split; auto. split; [intros ? ? ? ? []|auto].
  - cbn [map fst] in ND. inversion ND as [|? ? NI ND']; subst. inversion HF as [|? ? Hi HF']; subst. cbn [fst] in Hi. cbn [fill_values].
    assert (KK := HK p d). destruct (k p d) as [c|e] eqn:Ek.
    + destruct (IH (set_column values i c)) as (r & E & S & V & O); auto using set_column_shaped. exists r. split; [exact E|]. split; auto. split.
      * intros i' p' d' j [Heq|Hin] Hj HN.
        -- injection Heq as <- <- <-. rewrite O by auto. rewrite (at2_set_column values size n) by auto. rewrite Nat.eqb_refl, Ek. unfold outcome. rewrite nth_error_nth' with (d := None) by lia. reflexivity.
        -- apply V; auto. intros j' Hj'. rewrite (at2_set_column values size n) by auto. assert (i' <> i). { intros ->. apply NI. apply (in_map (fun e => fst (fst e)) _ _ Hin). }
           rewrite (proj2 (Nat.eqb_neq i' i)); auto.
      * intros i' j NI' Hj. cbn [map fst] in NI'. rewrite O by (simpl in NI'; tauto || auto). rewrite (at2_set_column values size n) by auto. rewrite (proj2 (Nat.eqb_neq i' i)); auto. intros ->. apply NI'. left; auto.
    + rewrite KK. destruct (IH values) as (r & E & S & V & O); auto. exists r. split; [exact E|]. split; auto. split.
      * intros i' p' d' j [Heq|Hin] Hj HN; [|apply V; auto]. injection Heq as <- <- <-. rewrite O by auto. rewrite HN by auto. rewrite Ek. reflexivity.
      * intros i' j NI' Hj. cbn [map fst] in NI'. apply O; auto. simpl in NI'. tauto.
Qed.
Lemma at2_repeat size n j i : (j < size)%nat -> (i < n)%nat -> at2 (repeat (repeat None n) size) j i = Some None.
Proof. intros Hj Hi. unfold at2. rewrite nth_error_repeat by auto. apply nth_error_repeat. auto. Qed.
Lemma repeat_shaped size n : shaped (repeat (repeat None n) size) size n.
Proof. split; [apply repeat_length|]. rewrite Forall_forall. intros v H. apply repeat_spec in H. subst. apply repeat_length. Qed.

(** ** The iterator's samples *)
Lemma combine_seq_in {A} (l : list A) i p : In (i, p) (combine (seq 0 (length l)) l) <-> nth_error l i = Some p.
Proof.
  assert (G : forall l s, In (i, p) (combine (seq s (length l)) l) <-> (s <= i)%nat /\ nth_error l (i - s) = Some p).
  { clear l. induction l as [|x l IH]; intros s; simpl; [split; [tauto|intros [_ H]; destruct (i - s)%nat; discriminate]|]. rewrite IH. split.
    - intros [E|[H1 H2]]; [injection E as -> ->; rewrite Nat.sub_diag; auto|]. split; [lia|]. replace (i - s)%nat with (S (i - S s)) by lia. auto.
    - intros [H1 H2]. destruct (Nat.eq_dec i s) as [->|]; [rewrite Nat.sub_diag in H2; left; simpl in H2; congruence|]. right. split; [lia|]. replace (i - s)%nat with (S (i - S s)) in H2 by lia. auto. }
  rewrite G, Nat.sub_0_r. split; [tauto|]. split; [lia|auto].
Qed.
Lemma visited_in mdfms points i p : In (i, p) (visited mdfms points) <-> nth_error points i = Some p /\ (mdfms && is_missing p = false).
Proof. unfold visited. rewrite filter_In, combine_seq_in. cbn [snd]. destruct (mdfms && is_missing p); simpl; split; intros [A B]; auto; discriminate. Qed.
Lemma map_fst_combine_nodup {A} (l : list A) : NoDup (map fst (combine (seq 0 (length l)) l)).
Proof.
  assert (E : forall s, map fst (combine (seq s (length l)) l) = seq s (length l)) by (induction l as [|x l IH]; intros s; simpl; auto; rewrite IH; auto). rewrite E. apply seq_NoDup.
Qed.
Lemma nodup_map_filter {A B} (f : A -> B) g l : NoDup (map f l) -> NoDup (map f (filter g l)).
Proof.
  induction l as [|x l IH]; simpl; auto. intros H. inversion H as [|? ? N D]; subst. destruct (g x); simpl; auto. constructor; auto.
  intros C. apply N. apply in_map_iff in C. destruct C as (y & E & Hy). apply filter_In in Hy. apply in_map_iff. exists y. tauto.
Qed.
Lemma iterator_samples P mdfms points it : Forall2 (fun (ip : nat * prow) (e : nat * prow * list prow) => fst e = ip /\ P ip (snd e)) (visited mdfms points) it ->
  NoDup (map (fun e : nat * prow * list prow => fst (fst e)) it) /\ Forall (fun e : nat * prow * list prow => (fst (fst e) < length points)%nat) it /\
  (forall i p, nth_error points i = Some p -> mdfms && is_missing p = false -> exists sel, In (i, p, sel) it /\ P (i, p) sel) /\
  (forall i, In i (map (fun e : nat * prow * list prow => fst (fst e)) it) -> exists p, nth_error points i = Some p /\ mdfms && is_missing p = false).
Proof.
  intros F. assert (M : map fst it = visited mdfms points) by (induction F as [|x y l m [H1 H2] H IH]; simpl; congruence).
  assert (M2 : map (fun e : nat * prow * list prow => fst (fst e)) it = map fst (visited mdfms points)) by (rewrite <- M, map_map; auto).
  assert (IN : forall i, In i (map fst (visited mdfms points)) -> exists p, nth_error points i = Some p /\ mdfms && is_missing p = false).
  { intros i H. apply in_map_iff in H. destruct H as ([i' p] & E & H). simpl in E. subst. apply visited_in in H. eauto. }
  split; [|split; [|split]].
  - rewrite M2. unfold visited. apply nodup_map_filter, map_fst_combine_nodup.
  - rewrite Forall_forall. intros e He. destruct (IN (fst (fst e))) as (p & E & _); [rewrite <- M2; apply (in_map (fun e : nat * prow * list prow => fst (fst e)) _ _ He)|].
    apply nth_error_Some. congruence.
  - intros i p E HM. assert (H : In (i, p) (visited mdfms points)) by (apply visited_in; auto). clear -F H. induction F as [|x y l m [H1 H2] F IH]; [destruct H|].
    destruct H as [->|H]; [exists (snd y); split; [left; destruct y; simpl in *; congruence|auto]|]. destruct (IH H) as (sel & A & B). exists sel. split; [right; auto|auto].
  - intros i H. apply IN. rewrite <- M2. auto.
Qed.

(** ** One variable *)
Lemma indices_exist h_sep data points : data <> [] -> points <> [] -> exists indices,
  match h_sep with Some h => if Qeqb h 0 then indices = None else exists l, find_points_within_distance_sample (map position data) (map position points) (Q2R h) = Ok l /\ indices = Some l | None => indices = None end.
Proof.
  intros HD HP. destruct h_sep as [h|]; [|eauto]. destruct (Qeqb h 0); [eauto|].
  destruct (find_points_shape (map position data) (map position points) (Q2R h)) as (l & E & _).
  - unfold rows_of_length. rewrite Forall_map, Forall_forall. reflexivity.
  - unfold rows_of_length. rewrite Forall_map, Forall_forall. reflexivity.
  - destruct data; [congruence|discriminate].
  - destruct points; [congruence|discriminate].
  - eauto.
Qed.
Lemma positions_tree l : l <> [] -> exists k, KDTree (map position l) 10 = Ok k.
Proof. intros H. apply build_ok; [unfold rows_of_length; rewrite Forall_map, Forall_forall; reflexivity|destruct l; [congruence|discriminate]]. Qed.
Theorem collocate_one_spec h_sep a_sep p_sep t_sep mdfms scols dcols k size points data :
  columns_for a_sep p_sep t_sep dcols -> columns_for a_sep p_sep t_sep scols -> kernel_ok k size -> points <> [] -> dropna data <> [] ->
  exists outs points' data' it, collocate_one h_sep a_sep p_sep t_sep mdfms scols dcols k size points data = Ok (outs, points') /\
    Forall2 same_place points points' /\ Forall2 same_place (dropna data) data' /\
    kd_get_iterator h_sep a_sep p_sep t_sep mdfms dcols scols data' points' = Ok it /\
    length outs = size /\ Forall (fun o => out_coords o = points' /\ length (out_values o) = length points) outs /\
    forall i p, nth_error points' i = Some p -> forall j o, nth_error outs j = Some o ->
      if mdfms && is_missing p then nth_error (out_values o) i = Some None
      else exists sel, In (i, p, sel) it /\ nth_error (out_values o) i = Some (outcome (k p sel) j).
Proof.
  intros HD HS HK NP ND. unfold collocate_one. destruct (fix_range_ok points points NP) as [pts E1]. rewrite E1. cbn [bind]. pose proof (fix_range_spec _ _ _ E1) as S1.
  assert (NP' : pts <> []) by (intros ->; inversion S1; subst; congruence). destruct (fix_range_ok pts data NP') as [dat E2]. rewrite E2. cbn [bind]. pose proof (dropna_same _ _ (fix_range_spec _ _ _ E2)) as S2.
  assert (ND' : dropna dat <> []) by (intros C; rewrite C in S2; inversion S2; congruence).
  destruct (positions_tree (dropna dat) ND') as [kt Et]. rewrite Et. cbn [bind].
  destruct (indices_exist h_sep (dropna dat) pts ND' NP') as [indices EI].
  destruct (kd_iterator_spec h_sep a_sep p_sep t_sep mdfms dcols scols (dropna dat) pts indices HD HS EI) as (it & Ei & F). rewrite Ei. cbn [bind].
  destruct (iterator_samples (fun ip sel => let near := match indices with Some ind => iloc (dropna dat) (nth (fst ip) ind []) | None => dropna dat end in
       Permutation sel (filter (limits_b a_sep p_sep t_sep (snd ip)) near) /\ (p_sep = None -> sel = filter (limits_b a_sep p_sep t_sep (snd ip)) near)) mdfms pts it F) as (N1 & N2 & N3 & N4).
  destruct (fill_values_spec k size (length pts) HK it (repeat (repeat None (length pts)) size) (repeat_shaped _ _) N1 N2) as (values & Ev & [V1 V2] & V3 & V4). rewrite Ev. cbn [bind].
  exists (map (fun v => mkOut v pts) values), pts, (dropna dat), it. split; [reflexivity|]. split; auto. split; auto. split; auto. split; [rewrite map_length; auto|]. split.
  { rewrite Forall_map. cbn. rewrite Forall_forall in *. intros v Hv. split; auto. rewrite (V2 v Hv). apply (forall2_length _ _ _ S1). }
  intros i p Ep j o Eo. rewrite nth_error_map in Eo. destruct (nth_error values j) as [v|] eqn:Evj; [|discriminate]. injection Eo as <-. cbn [out_values].
  assert (Hj : (j < size)%nat) by (rewrite <- V1; apply nth_error_Some; congruence). assert (Hi : (i < length pts)%nat) by (apply nth_error_Some; congruence).
  assert (A : at2 values j i = nth_error v i) by (unfold at2; rewrite Evj; auto). rewrite <- A. destruct (mdfms && is_missing p) eqn:EM.
  - rewrite V4; auto; [apply at2_repeat; auto|]. intros C. apply N4 in C. destruct C as (p' & E' & M'). congruence.
  - destruct (N3 i p Ep EM) as (sel & Hin & _). exists sel. split; auto. apply V3 with (p := p); auto. intros j' Hj'. apply at2_repeat; auto.
Qed.

(** several variables *)
Theorem collocate_list_spec h_sep a_sep p_sep t_sep mdfms scols k size vars : forall points outs,
  collocate_list h_sep a_sep p_sep t_sep mdfms scols k size points vars = Ok outs ->
  exists parts, outs = concat parts /\ Forall2 (fun (var : columns * list prow) part => exists points1 points2, Forall2 same_place points points1 /\
    collocate_one h_sep a_sep p_sep t_sep mdfms scols (fst var) k size points1 (snd var) = Ok (part, points2)) vars parts.
Proof.
  assert (SP : forall l, Forall2 same_place l l). { induction l; constructor; auto. unfold same_place. repeat split; auto. exists 0%Z. change (inject_Z 0) with 0%Q. ring. }
  assert (TR : forall a b, Forall2 same_place a b -> forall c, Forall2 same_place b c -> Forall2 same_place a c).
  { induction 1 as [|x y a b H F IH]; intros c Hc; inversion Hc; subst; constructor; auto. unfold same_place in *. destruct H as (A1 & [k1 A2] & A3 & A4 & A5 & A6). match goal with H : _ /\ _ |- _ => destruct H as (B1 & [k2 B2] & B3 & B4 & B5 & B6) end.
    repeat split; try congruence. exists (k1 + k2)%Z. rewrite B2, A2, inject_Z_plus. ring. }
  induction vars as [|[dcols data] vars IH]; intros points outs H; cbn [collocate_list] in H.
  - injection H as <-. exists []. split; auto.
  - destruct (collocate_one _ _ _ _ _ _ _ _ _ _ _) as [[part pts]|] eqn:E1; [|discriminate]. cbn [bind fst snd] in H. destruct (collocate_list _ _ _ _ _ _ _ _ _ _) as [rest|] eqn:E2; [|discriminate]. cbn [bind] in H. injection H as <-.
    assert (S1 : Forall2 same_place points pts).
    { clear -E1. unfold collocate_one in E1. destruct (fix_range points points) as [q|] eqn:EF; [|discriminate]. apply fix_range_spec in EF. cbn [bind] in E1.
      repeat match type of E1 with bind ?x _ = _ => destruct x; [|discriminate]; cbn [bind] in E1 end. injection E1 as _ <-. auto. }
    destruct (IH pts rest E2) as (parts & -> & F). exists (part :: parts). split; [reflexivity|]. constructor.
    + exists points, pts. split; auto.
    + clear -F S1 TR. induction F as [|a b l m (p1 & p2 & A & B) F IH]; constructor; auto. exists p1, p2. split; eauto.
Qed.

(** ** Limits including the distance *)
Theorem iterator_no_distance a_sep p_sep t_sep mdfms dcols scols data points : columns_for a_sep p_sep t_sep dcols -> columns_for a_sep p_sep t_sep scols ->
  Forall positive_pressure data -> Forall positive_pressure points ->
  exists it, kd_get_iterator None a_sep p_sep t_sep mdfms dcols scols data points = Ok it /\
    Forall2 (fun ip e => fst e = ip /\ exists l, kept (meets_limits a_sep p_sep t_sep (snd ip)) data l /\ Permutation l (snd e) /\ (p_sep = None -> snd e = l)) (visited mdfms points) it.
Proof.
  intros HD HS HP HQ. destruct (kd_iterator_spec None a_sep p_sep t_sep mdfms dcols scols data points None HD HS eq_refl) as (it & E & F). exists it. split; auto.
  assert (V : forall ip, In ip (visited mdfms points) -> positive_pressure (snd ip)).
  { intros [i p] H. apply visited_in in H. destruct H as [H _]. apply nth_error_In in H. rewrite Forall_forall in HQ. apply HQ; auto. }
  clear E. induction F as [|x y l m H F IH]; constructor.
  - destruct H as (A & B & C). split; auto. exists (filter (limits_b a_sep p_sep t_sep (snd x)) data). split.
    + apply filter_kept. intros d Hd. apply limits_b_spec; [rewrite Forall_forall in HP; auto|apply V; left; auto].
    + split; [apply Permutation_sym; auto|auto].
  - apply IH. intros; apply V; right; auto.
Qed.
Lemma position_row data points i j (p d : prow) : nth_error points i = Some p -> nth_error data j = Some d ->
  row_distance (nth j (map position data) []) (nth i (map position points) []) = surface_distance d p.
Proof.
  intros Ep Ed. rewrite (nth_error_nth _ _ [] (map_nth_error position _ _ Ed)), (nth_error_nth _ _ [] (map_nth_error position _ _ Ep)). reflexivity.
Qed.
Theorem iterator_equator h a_sep p_sep t_sep mdfms dcols scols data points oa ob : columns_for a_sep p_sep t_sep dcols -> columns_for a_sep p_sep t_sep scols ->
  Forall positive_pressure data -> Forall positive_pressure points -> data <> [] -> points <> [] ->
  Forall (on_equator oa ob) data -> Forall (on_equator oa ob) points -> (ob - oa <= 90)%Q -> (0 < h)%Q -> Q2R h <= PI * 6378 ->
  exists it, kd_get_iterator (Some h) a_sep p_sep t_sep mdfms dcols scols data points = Ok it /\
    Forall2 (fun ip e => fst e = ip /\ exists l, kept (fun d => surface_distance d (snd ip) <= Q2R h /\ meets_limits a_sep p_sep t_sep (snd ip) d) data l /\ Permutation l (snd e)) (visited mdfms points) it.
Proof.
  intros HD HS HP HQ ND NP BD BP HO Hh Hr. assert (RL : forall l, rows_of_length 2 (map position l)) by (intros l; unfold rows_of_length; rewrite Forall_map, Forall_forall; reflexivity).
  assert (BX : forall l, Forall (on_equator oa ob) l -> Forall (in_box 0 0 oa ob) (map position l)).
  { intros l H. rewrite Forall_map. eapply Forall_impl; [|exact H]. intros p [A B]. unfold in_box, position. cbn. split; auto. rewrite A. split; auto. split; apply Qle_refl. }
  destruct (find_points_equator (map position data) (map position points) (Q2R h) oa ob) as (ind & E & L & X); auto.
  { destruct data; [congruence|discriminate]. } { destruct points; [congruence|discriminate]. }
  { split; auto. replace 0 with (Q2R 0) by (unfold Q2R; simpl; lra). apply Qle_Rle, Qlt_le_weak. auto. }
  assert (EZ : Qeqb h 0 = false). { destruct (Qeqb h 0) eqn:EQ; auto. apply Qeqb_eq in EQ. rewrite EQ in Hh. discriminate. }
  destruct (kd_iterator_spec (Some h) a_sep p_sep t_sep mdfms dcols scols data points (Some ind) HD HS) as (it & Ei & F); [rewrite EZ; eauto|]. exists it. split; auto.
  assert (V : forall ip, In ip (visited mdfms points) -> nth_error points (fst ip) = Some (snd ip) /\ positive_pressure (snd ip)).
  { intros [i p] H. apply visited_in in H. destruct H as [H _]. split; auto. apply nth_error_In in H. rewrite Forall_forall in HQ. apply HQ; auto. }
  clear Ei. induction F as [|x y l m H F IH]; constructor; [|apply IH; intros; apply V; right; auto].
  destruct H as (A & B & _). split; auto. destruct (V x (or_introl eq_refl)) as [Ex Px]. assert (Hi : (fst x < length points)%nat) by (apply nth_error_Some; congruence).
  specialize (X (fst x)). rewrite map_length in X. destruct (X Hi) as [X1 X2]. rewrite map_length in X2.
  destruct (iloc_exact (fun d => surface_distance d (snd x) <= Q2R h) data (nth (fst x) ind []) X1) as (r & K & P).
  { intros j. rewrite X2. split.
    - intros [Hj Hd]. destruct (nth_error data j) as [d|] eqn:Ed; [|apply nth_error_None in Ed; lia]. exists d. split; auto. rewrite (position_row data points (fst x) j (snd x) d Ex Ed) in Hd. auto.
    - intros (d & Ed & Hd). split; [apply nth_error_Some; congruence|]. rewrite (position_row data points (fst x) j (snd x) d Ex Ed). auto. }
  exists (filter (limits_b a_sep p_sep t_sep (snd x)) r). split.
  - apply kept_kept; auto. intros d Hd. apply limits_b_spec; auto. rewrite Forall_forall in HP. auto.
  - apply Permutation_sym. eapply Permutation_trans; [exact B|]. apply filter_perm. auto.
Qed.
(** anywhere: only data rows, each at most as often as it occurs, within the other limits *)
Lemma iloc_sub {A} (l : list A) idx : NoDup idx -> (forall j, In j idx -> (j < length l)%nat) -> exists other, Permutation l (iloc l idx ++ other).
Proof.
  intros ND H. set (f := fun j => if in_dec Nat.eq_dec j idx then true else false).
  assert (P : Permutation (iloc l idx) (iloc l (filter f (seq 0 (length l))))).
  { apply iloc_perm, NoDup_Permutation; auto; [apply NoDup_filter, seq_NoDup|]. intros j. rewrite filter_In, in_seq. unfold f. destruct (in_dec Nat.eq_dec j idx) as [I|I]; split; auto; [|tauto|intros [_ C]; discriminate].
    intros _. split; auto. specialize (H j I). lia. }
  rewrite iloc_filter in P. assert (M : l = map snd (combine (seq 0 (length l)) l)).
  { assert (G : forall s, map snd (combine (seq s (length l)) l) = l) by (clear; induction l as [|x l IH]; intros s; simpl; auto; rewrite IH; auto). symmetry. apply G. }
  exists (map snd (filter (fun ix : nat * A => negb (f (fst ix))) (combine (seq 0 (length l)) l))).
  eapply Permutation_trans; [|apply Permutation_app_tail, Permutation_sym, P]. rewrite M at 1. rewrite <- map_app. apply Permutation_map.
  generalize (combine (seq 0 (length l)) l) as c. induction c as [|x c IH]; simpl; auto. destruct (f (fst x)); simpl; auto. eapply Permutation_trans; [apply perm_skip; exact IH|apply Permutation_middle].
Qed.
Lemma filter_split {A} (f : A -> bool) l : Permutation l (filter f l ++ filter (fun x => negb (f x)) l).
Proof. induction l as [|x l IH]; simpl; auto. destruct (f x); simpl; auto. eapply Permutation_trans; [apply perm_skip; exact IH|apply Permutation_middle]. Qed.
Theorem iterator_anywhere h a_sep p_sep t_sep mdfms dcols scols data points : columns_for a_sep p_sep t_sep dcols -> columns_for a_sep p_sep t_sep scols ->
  Forall positive_pressure data -> Forall positive_pressure points -> data <> [] -> points <> [] -> ~ (h == 0)%Q ->
  exists it, kd_get_iterator (Some h) a_sep p_sep t_sep mdfms dcols scols data points = Ok it /\
    Forall2 (fun ip e => fst e = ip /\ Forall (meets_limits a_sep p_sep t_sep (snd ip)) (snd e) /\ exists other, Permutation data (snd e ++ other)) (visited mdfms points) it.
Proof.
  intros HD HS HP HQ ND NP Hh. destruct (find_points_shape (map position data) (map position points) (Q2R h)) as (ind & E & L & X).
  { unfold rows_of_length; rewrite Forall_map, Forall_forall; reflexivity. } { unfold rows_of_length; rewrite Forall_map, Forall_forall; reflexivity. }
  { destruct data; [congruence|discriminate]. } { destruct points; [congruence|discriminate]. }
  assert (EZ : Qeqb h 0 = false). { destruct (Qeqb h 0) eqn:EQ; auto. apply Qeqb_eq in EQ. contradiction. }
  destruct (kd_iterator_spec (Some h) a_sep p_sep t_sep mdfms dcols scols data points (Some ind) HD HS) as (it & Ei & F); [rewrite EZ; eauto|]. exists it. split; auto.
  assert (V : forall ip, In ip (visited mdfms points) -> nth_error points (fst ip) = Some (snd ip) /\ positive_pressure (snd ip)).
  { intros [i p] H. apply visited_in in H. destruct H as [H _]. split; auto. apply nth_error_In in H. rewrite Forall_forall in HQ. apply HQ; auto. }
  clear Ei. induction F as [|x y l m H F IH]; constructor; [|apply IH; intros; apply V; right; auto].
  destruct H as (A & B & _). split; auto. destruct (V x (or_introl eq_refl)) as [Ex Px]. assert (Hi : (fst x < length points)%nat) by (apply nth_error_Some; congruence).
  specialize (X (fst x)). rewrite map_length in X. destruct (X Hi) as (X1 & X2 & _). rewrite map_length in X2.
  destruct (iloc_sub data (nth (fst x) ind []) X1) as [other PO]; [intros j Hj; apply X2; auto|].
  assert (SUB : forall d, In d (snd y) -> In d data /\ limits_b a_sep p_sep t_sep (snd x) d = true).
  { intros d Hd. apply (Permutation_in _ B) in Hd. apply filter_In in Hd. destruct Hd as [H1 H2]. split; auto. apply (Permutation_in _ (Permutation_sym PO)). apply in_or_app. auto. }
  split.
  - rewrite Forall_forall. intros d Hd. destruct (SUB d Hd) as [H1 H2]. apply limits_b_spec; auto. rewrite Forall_forall in HP. auto.
  - eexists. eapply Permutation_trans; [exact PO|]. eapply Permutation_trans; [apply Permutation_app_tail, (filter_split (limits_b a_sep p_sep t_sep (snd x)))|].
    rewrite <- app_assoc. apply Permutation_app; [apply Permutation_sym; exact B|apply Permutation_refl].
Qed.

(** ** Failures *)
Definition sp (lat lon : Q) (v : option R) : prow := mkRow lat lon 0 1 0 v.
(** a distance limit of zero is no limit *)
Lemma zero_distance : kd_get_iterator (Some 0%Q) None None None false [LAT; LON] [LAT; LON] [sp 0 90 (Some 1)] [sp 0 0 None] = Ok [(0%nat, sp 0 0 None, [sp 0 90 (Some 1)])] /\
  sep_constrain_points (Some 0%Q) None None None (sp 0 0 None) [sp 0 90 (Some 1)] = [].
Proof.
  split; [reflexivity|]. unfold sep_constrain_points, sep_checks. cbn [app fold_left forallb]. destruct (Rltb _ _) eqn:E; [|reflexivity]. exfalso. apply Rltb_spec in E.
  unfold haversine_dist, hdist in E. match type of E with haversine ?a ?b ?c ?d < _ => pose proof (hav_bounds a b c d) end. replace (Q2R 0) with 0 in E at 5 by (unfold Q2R; simpl; lra). lra.
Qed.
Lemma no_data_raises a_sep p_sep t_sep h_sep mdfms scols dcols k size points data : points <> [] -> dropna data = [] ->
  collocate_one h_sep a_sep p_sep t_sep mdfms scols dcols k size points data = Raises ValueError.
Proof.
  intros NP ND. unfold collocate_one. destruct (fix_range_ok points points NP) as [pts E1]. rewrite E1. cbn [bind]. pose proof (fix_range_spec _ _ _ E1) as S1.
  assert (NP' : pts <> []) by (intros ->; inversion S1; subst; congruence). destruct (fix_range_ok pts data NP') as [dat E2]. rewrite E2. cbn [bind]. pose proof (dropna_same _ _ (fix_range_spec _ _ _ E2)) as S2.
  rewrite ND in S2. inversion S2. reflexivity.
Qed.
Lemma column_order : exists d1 d2, k_nn_horizontal [LON; LAT] [LON; LAT] (sp 60 0 None) [sp 60 60 (Some 1); sp 10 0 (Some 2)] = Ok [Some 2] /\
  d1 = surface_distance (sp 60 60 (Some 1)) (sp 60 0 None) /\ d2 = surface_distance (sp 10 0 (Some 2)) (sp 60 0 None) /\ d1 < d2.
Proof.
  eexists _, _. split; [|split; [reflexivity|split; [reflexivity|]]].
  - unfold k_nn_horizontal, nn_horizontal, cells, first_columns, hdist. cbn [map fold_left fst snd nth field sp p_lat p_lon p_val].
    replace (Q2R 60) with 60 by (unfold Q2R; simpl; lra). replace (Q2R 0) with 0 by (unfold Q2R; simpl; lra). replace (Q2R 10) with 10 by (unfold Q2R; simpl; lra).
    rewrite (hav_meridian 0 60 60) by (rewrite Rabs_right by lra; lra). rewrite (hav_sym 0 60 0 10). rewrite (hav_equator2 10 60 50) by lra.
    assert (E : Rgtb (Rabs (60 - 0) * PI / 180 * 6378) (50 * PI / 180 * 6378) = true). { apply Rgtb_spec. rewrite Rabs_right by lra. pose proof PI_RGT_0. lra. }
    rewrite E. reflexivity.
  - unfold surface_distance. cbn [sp p_lat p_lon]. replace (Q2R 60) with 60 by (unfold Q2R; simpl; lra). replace (Q2R 0) with 0 by (unfold Q2R; simpl; lra). replace (Q2R 10) with 10 by (unfold Q2R; simpl; lra).
    rewrite <- !haversine_great_circle. rewrite (hav_meridian 10 60 0) by (rewrite Rabs_right by lra; lra). rewrite Rabs_right by lra. rewrite hav_dot, dotp_diff. unfold radians.
    replace ((60 - 60) * PI / 180) with 0 by field. replace ((0 - 60) * PI / 180) with (- (PI / 3)) by field. rewrite rad60, cos_0, cos_neg, cos_PI3.
    assert (A : acos (1 - 1 / 2 * (1 / 2) * (1 - 1 / 2)) <= PI / 4).
    { rewrite <- (acos_cos (PI / 4)) by (pose proof PI_RGT_0; lra). apply acos_anti; [pose proof (COS_bound (PI / 4)); lra| |lra].
      rewrite cos_PI4. assert (S : 8 / 7 <= sqrt 2). { rewrite <- (sqrt_Rsqr (8 / 7)) by lra. apply sqrt_le_1_alt. unfold Rsqr. lra. }
      assert (sqrt 2 <> 0) by lra. apply (Rmult_le_reg_r (sqrt 2)); [lra|]. unfold Rdiv at 1. rewrite Rmult_assoc, Rinv_l by auto. lra. }
    pose proof PI_RGT_0. lra.
Qed.
Lemma statistics_ok : kernel_ok k_mean 1 /\ kernel_ok k_stddev 1 /\ kernel_ok k_min 1 /\ kernel_ok k_max 1 /\ kernel_ok k_sum 1 /\ kernel_ok k_moments 3 /\ kernel_ok k_nn_time 1 /\ kernel_ok k_nn_altitude 1 /\ kernel_ok k_nn_pressure 1 /\
  forall s d, kernel_ok (k_nn_horizontal s d) 1.
Proof.
  repeat split; try (intros p d; unfold k_mean, k_stddev, k_min, k_max, k_sum, k_moments, data_only; destruct (length (vals d) =? 0)%nat; reflexivity); try (intros p [|x d]; reflexivity).
  intros s c p [|x d]; reflexivity.
Qed.

(** ** The mean, from start to end *)
Lemma meets_same a p t ref ref' d d' : same_place ref ref' -> same_place d d' -> meets_limits a p t ref d <-> meets_limits a p t ref' d'.
Proof. intros (_ & _ & A1 & A2 & A3 & _) (_ & _ & B1 & B2 & B3 & _). unfold meets_limits. rewrite A1, A2, A3, B1, B2, B3. tauto. Qed.
Lemma kept_same (P Q : prow -> Prop) l m r : (forall x y, same_place x y -> P x <-> Q y) -> Forall2 same_place l m -> kept Q m r -> exists r0, kept P l r0 /\ Forall2 same_place r0 r.
Proof.
  intros HPQ F. revert r. induction F as [|x y l m H F IH]; intros r K; inversion K; subst.
  - exists []. split; constructor.
  - destruct (IH _ ltac:(eassumption)) as (rr & A & B). exists (x :: rr). split; constructor; auto. apply (HPQ x y H). auto.
  - destruct (IH _ ltac:(eassumption)) as (rr & A & B). exists rr. split; auto. constructor; auto. intros C. apply (HPQ x y H) in C. auto.
Qed.
Lemma same_vals l m : Forall2 same_place l m -> vals m = vals l.
Proof. induction 1 as [|x y l m (_ & _ & _ & _ & _ & E) F IH]; simpl; auto. rewrite E, IH. auto. Qed.
Lemma same_pressure l m : Forall2 same_place l m -> Forall positive_pressure l -> Forall positive_pressure m.
Proof. induction 1 as [|x y l m (_ & _ & _ & E & _) F IH]; intros H; constructor; inversion H; subst; auto. unfold positive_pressure in *. rewrite E. auto. Qed.
Lemma nth_error_forall2 {A B} (P : A -> B -> Prop) l m i x : Forall2 P l m -> nth_error l i = Some x -> exists y, nth_error m i = Some y /\ P x y.
Proof. intros F. revert i. induction F as [|a b l m H F IH]; intros [|i] E; try discriminate; simpl in *; [injection E as <-; eauto|apply IH; auto]. Qed.
Lemma nth_error_forall2r {A B} (P : A -> B -> Prop) l m i y : Forall2 P l m -> nth_error m i = Some y -> exists x, nth_error l i = Some x /\ P x y.
Proof. intros F. revert i. induction F as [|a b l m H F IH]; intros [|i] E; try discriminate; simpl in *; [injection E as <-; eauto|apply IH; auto]. Qed.
Lemma vals_forall l : Forall (fun d => is_missing d = false) l -> Forall2 (fun p v => p_val p = Some v) l (vals l).
Proof. induction 1 as [|x l H F IH]; simpl; [constructor|]. unfold is_missing in H. destruct (p_val x) eqn:E; [|discriminate]. simpl. constructor; auto. Qed.
Lemma kept_forall {A} (P Q : A -> Prop) l r : kept P l r -> Forall Q l -> Forall Q r.
Proof. induction 1; intros HH; auto; inversion HH; subst; auto. Qed.
Lemma dropna_kept data : kept (fun d => p_val d <> None) data (dropna data).
Proof. apply filter_kept. intros x _. unfold is_missing. destruct (p_val x); simpl; split; congruence. Qed.
Theorem collocate_mean_spec a_sep p_sep t_sep mdfms scols dcols points data with_value :
  columns_for a_sep p_sep t_sep dcols -> columns_for a_sep p_sep t_sep scols -> points <> [] -> Forall positive_pressure points -> Forall positive_pressure data ->
  kept (fun d => p_val d <> None) data with_value -> with_value <> [] ->
  exists out points', collocate_one None a_sep p_sep t_sep mdfms scols dcols k_mean 1 points data = Ok ([out], points') /\
    out_coords out = points' /\ Forall2 same_place points points' /\ length (out_values out) = length points /\
    forall i p, nth_error points i = Some p -> exists near values, kept (meets_limits a_sep p_sep t_sep p) with_value near /\ Forall2 (fun d v => p_val d = Some v) near values /\
      ((values = [] \/ (mdfms = true /\ p_val p = None)) -> nth_error (out_values out) i = Some None) /\
      (values <> [] -> (mdfms = false \/ p_val p <> None) -> exists m, nth_error (out_values out) i = Some (Some m) /\ is_mean values m).
Proof.
  intros HD HS NP PP PD KW NW. rewrite (kept_unique _ _ _ _ KW (dropna_kept data)) in *. clear KW with_value.
  destruct (collocate_one_spec None a_sep p_sep t_sep mdfms scols dcols k_mean 1 points data HD HS (proj1 statistics_ok) NP NW) as (outs & pts & dat & it & E & S1 & S2 & Ei & L & F & V).
  destruct outs as [|out [|? ?]]; try discriminate L. inversion F as [|? ? [F1 F2] _]; subst. exists out, (out_coords out). split; auto. split; auto. split; auto. split; auto.
  intros i p Ep. destruct (nth_error_forall2 _ _ _ _ _ S1 Ep) as (p' & Ep' & SP). specialize (V i p' Ep' 0%nat out eq_refl).
  assert (PD' : Forall positive_pressure dat). { apply (same_pressure _ _ S2). unfold dropna. rewrite Forall_forall in *. intros x Hx. apply filter_In in Hx. apply PD. tauto. }
  destruct (iterator_no_distance a_sep p_sep t_sep mdfms dcols scols dat (out_coords out) HD HS PD' (same_pressure _ _ S1 PP)) as (it' & Ei' & FI). rewrite Ei in Ei'. injection Ei' as <-.
  assert (MISS : is_missing p' = is_missing p) by (apply same_place_missing; auto). rewrite MISS in V.
  assert (KX : exists near, kept (meets_limits a_sep p_sep t_sep p) (dropna data) near).
  { exists (filter (limits_b a_sep p_sep t_sep p) (dropna data)). apply filter_kept. intros x Hx. apply limits_b_spec; [|rewrite Forall_forall in PP; apply PP; eapply nth_error_In; eauto].
    rewrite Forall_forall in PD. apply PD. unfold dropna in Hx. apply filter_In in Hx. tauto. }
  destruct KX as [near KN]. exists near, (vals near). split; auto. assert (FV : Forall2 (fun d v => p_val d = Some v) near (vals near)).
  { apply vals_forall. apply (kept_forall _ _ _ _ KN). unfold dropna. rewrite Forall_forall. intros x Hx. apply filter_In in Hx. destruct Hx as [_ Hx]. destruct (is_missing x); auto; discriminate. }
  split; auto. destruct (mdfms && is_missing p) eqn:EM.
  - apply andb_true_iff in EM. destruct EM as [-> EM]. unfold is_missing in EM. split; auto. intros _ [C|C]; [discriminate|]. destruct (p_val p); congruence.
  - assert (EM' : mdfms && is_missing p' = false) by (rewrite MISS; auto).
    destruct (iterator_samples (fun ip sel => exists l, kept (meets_limits a_sep p_sep t_sep (snd ip)) dat l /\ Permutation l sel /\ (p_sep = None -> sel = l)) mdfms (out_coords out) it FI) as (_ & _ & N3 & _). destruct (N3 i p' Ep' EM') as (sel & Hin & l & KL & PL & _). cbn [snd] in KL.
    destruct V as (sel' & Hin' & V).
    assert (ES : sel' = sel).
    { destruct (iterator_samples (fun ip sel => exists l, kept (meets_limits a_sep p_sep t_sep (snd ip)) dat l /\ Permutation l sel /\ (p_sep = None -> sel = l)) mdfms (out_coords out) it FI) as (NDI & _ & _ & _). clear -NDI Hin Hin'. induction it as [|e it IH]; [destruct Hin|]. cbn [map] in NDI. inversion NDI as [|? ? N1 N2]; subst.
      destruct Hin as [->|Hin], Hin' as [E|Hin']; auto; [congruence| |].
      - exfalso. apply N1. apply (in_map (fun e : nat * prow * list prow => fst (fst e)) _ _ Hin').
      - exfalso. apply N1. subst e. apply (in_map (fun e : nat * prow * list prow => fst (fst e)) _ _ Hin). }
    subst sel'. destruct (kept_same (meets_limits a_sep p_sep t_sep p) (meets_limits a_sep p_sep t_sep p') (dropna data) dat l) as (l0 & K0 & S0); auto; [intros; apply meets_same; auto|].
    rewrite (kept_unique _ _ _ _ K0 KN) in *. assert (EVL : k_mean p' sel = k_mean p near).
    { rewrite (kernels_perm k_mean p' p' sel l) by (simpl; auto using Permutation_sym). unfold k_mean, data_only. rewrite (same_vals _ _ S0). reflexivity. }
    rewrite EVL in V. split.
    + intros [C|[C1 C2]].
      * rewrite V. unfold k_mean, data_only. rewrite C. reflexivity.
      * subst mdfms. unfold is_missing in EM. rewrite C2 in EM. discriminate.
    + intros NV _. rewrite V. unfold k_mean. rewrite (data_only_ok _ p near (vals near) FV NV). cbn [outcome nth]. exists (np_mean (vals near)). split; auto. apply np_mean_spec; auto.
Qed.
