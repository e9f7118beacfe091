From Verif Require Import Base QBase KDModel KDSpec KDProofs KD2Proofs KD4Proofs HavModel HavSpec HavProofs Hav2Proofs ColModel ColSpec ColProofs Col3Proofs BallModel BallSpec BallProofs Ball2Proofs.
From Coq Require Import List Reals Lra Psatz Qreals Permutation.
Import ListNotations.
Open Scope R_scope.

(** the entries of the cache say what a query of the index would say *)
Definition entry_ok (h : Q) (data : list prow) (e : (Q * Q) * list nat) : Prop :=
  exact_list (fun i => (i < length data)%nat /\ row_distance (nth i (map position data) []) [fst (fst e); snd (fst e)] <= Q2R h) (snd e).
Definition con_ok (h : Q) (data : list prow) (kd : kdtree) (c : constraint) : Prop := c_index c = Some kd /\ Forall (entry_ok h data) (c_cache c).

Lemma row_dist_eq a la lo la' lo' : (la == la')%Q -> (lo == lo')%Q -> row_distance a [la; lo] = row_distance a [la'; lo'].
Proof. intros A B. unfold row_distance, latitude, longitude. cbn [nth]. rewrite (Qeq_eqR _ _ A), (Qeq_eqR _ _ B). reflexivity. Qed.
Lemma cached_ok h data kd c lat lon idx : con_ok h data kd c -> cached c lat lon = Some idx ->
  exact_list (fun i => (i < length data)%nat /\ row_distance (nth i (map position data) []) [lat; lon] <= Q2R h) idx.
Proof.
  intros [_ F] H. unfold cached in H. destruct (find _ (c_cache c)) as [[[la lo] l]|] eqn:E; [|discriminate]. injection H as ->. apply find_some in E. destruct E as [I Q]. cbn [fst snd] in Q.
  apply andb_true_iff in Q. destruct Q as [Q1 Q2]. apply Qeqb_eq in Q1, Q2. rewrite Forall_forall in F. specialize (F _ I). destruct F as [N X]. cbn [fst snd] in X. split; auto. intros j. rewrite X, (row_dist_eq _ la lo lat lon Q1 Q2). reflexivity.
Qed.
Lemma take_ok {P} data idx : exact_list (fun i => (i < length data)%nat /\ P i) idx -> take_rows data idx = Ok (iloc data idx).
Proof. intros [_ X]. unfold take_rows. replace (forallb _ idx) with true; auto. symmetry. apply forallb_forall. intros i I. apply Nat.ltb_lt. apply X in I. tauto. Qed.
Lemma rows_near h data ref idx : exact_list (fun i => (i < length data)%nat /\ row_distance (nth i (map position data) []) (position ref) <= Q2R h) idx ->
  exists r, kept (fun d => surface_distance d ref <= Q2R h) data r /\ Permutation (iloc data idx) r.
Proof.
  intros [N X]. apply iloc_exact; auto. intros j. rewrite X. split.
  - intros [Hj Hd]. destruct (nth_error data j) as [d|] eqn:Ed; [|apply nth_error_None in Ed; lia]. exists d. split; auto. rewrite (nth_error_nth _ _ [] (map_nth_error position _ _ Ed)) in Hd. exact Hd.
  - intros (d & Ed & Hd). split; [apply nth_error_Some; congruence|]. rewrite (nth_error_nth _ _ [] (map_nth_error position _ _ Ed)). exact Hd.
Qed.
Lemma kept_iff {A} (P Q : A -> Prop) l r : (forall x, P x <-> Q x) -> kept P l r -> kept Q l r.
Proof. intros H K. induction K; [constructor|constructor; auto; apply H; auto|constructor; auto; rewrite <- H; auto]. Qed.

Section Constraint.
Variables (a_sep p_sep t_sep : option Q) (dcols scols : columns) (data : list prow).
Hypothesis HD : columns_for a_sep p_sep t_sep dcols.
Hypothesis HS : columns_for a_sep p_sep t_sep scols.
Hypothesis HP : Forall positive_pressure data.

(** no horizontal limit *)
Lemma unlimited h_sep c ref : positive_pressure ref -> (c_index c = None \/ h_sep = None \/ exists h, h_sep = Some h /\ (h == 0)%Q) ->
  exists out l, constrain_points h_sep a_sep p_sep t_sep dcols scols c ref data = Ok (c, out) /\ kept (meets_limits a_sep p_sep t_sep ref) data l /\ Permutation l out.
Proof.
  intros HR H. destruct (apply_checks_spec dcols scols a_sep p_sep t_sep ref data HD HS) as (d & E & P & _). exists d, (filter (limits_b a_sep p_sep t_sep ref) data). split; [|split].
  - unfold constrain_points. rewrite E. cbn [bind]. destruct (c_index c) as [kd|]; [|reflexivity]. destruct h_sep as [h|]; [|reflexivity]. destruct H as [H|[H|(h' & H & Z)]]; try discriminate. injection H as <-. apply Qeqb_eq in Z. rewrite Z. reflexivity.
  - apply filter_kept. intros x Hx. apply limits_b_spec; auto. rewrite Forall_forall in HP; auto.
  - apply Permutation_sym. exact P.
Qed.
Lemma unlimited_all h_sep c refs : Forall positive_pressure refs -> (c_index c = None \/ h_sep = None \/ exists h, h_sep = Some h /\ (h == 0)%Q) ->
  exists outs, constrain_all h_sep a_sep p_sep t_sep dcols scols c refs data = Ok outs /\ one_for_each (meets_limits a_sep p_sep t_sep) data refs outs.
Proof.
  intros F H. induction F as [|ref refs PR F IH]; cbn [constrain_all]; [exists []; split; [auto|constructor]|]. destruct (unlimited h_sep c ref PR H) as (out & l & E & K & P). destruct IH as (outs & E2 & O).
  rewrite E. cbn [bind fst snd]. rewrite E2. cbn [bind]. exists (out :: outs). split; auto. constructor; eauto.
Qed.

(** a horizontal limit *)
Variables (h : Q) (kd : kdtree).
Hypothesis Hh : ~ (h == 0)%Q.
Hypothesis HK : KDTree (map position data) 10 = Ok kd.
Hypothesis HL : Forall has_latitude data.
Lemma limited c ref : con_ok h data kd c -> positive_pressure ref -> has_latitude ref -> longitudes_near data [ref] ->
  exists c' out l, constrain_points (Some h) a_sep p_sep t_sep dcols scols c ref data = Ok (c', out) /\ con_ok h data kd c' /\ kept (should_keep (Some h) a_sep p_sep t_sep ref) data l /\ Permutation l out.
Proof.
  intros C HR LR [N1 N2]. assert (EZ : Qeqb h 0 = false). { destruct (Qeqb h 0) eqn:EQ; auto. apply Qeqb_eq in EQ. contradiction. }
  assert (FIN : forall idx (c2 : constraint), exact_list (fun i => (i < length data)%nat /\ row_distance (nth i (map position data) []) (position ref) <= Q2R h) idx -> con_ok h data kd c2 ->
    exists c' out l, bind (take_rows data idx) (fun pts => bind (apply_checks dcols scols (kd_checks a_sep p_sep t_sep) ref pts) (fun l => Ok (c2, l))) = Ok (c', out) /\ con_ok h data kd c' /\ kept (should_keep (Some h) a_sep p_sep t_sep ref) data l /\ Permutation l out).
  { intros idx c2 X C2. rewrite (take_ok data idx X). cbn [bind]. destruct (apply_checks_spec dcols scols a_sep p_sep t_sep ref (iloc data idx) HD HS) as (d & E & P & _). rewrite E. cbn [bind].
    destruct (rows_near h data ref idx X) as (r & K & PR). exists c2, d, (filter (limits_b a_sep p_sep t_sep ref) r). split; auto. split; auto. split.
    - eapply kept_iff; [|eapply kept_kept; [|exact K]].
      2: { intros x Hx. cbv beta. apply limits_b_spec; auto. rewrite Forall_forall in HP; auto. }
      intros x. unfold should_keep. split; [intros [A B]; split; auto; intros h' [= <-] _; auto|intros [A B]; split; auto].
    - apply Permutation_sym. eapply Permutation_trans; [exact P|]. apply filter_perm. exact PR. }
  unfold constrain_points. destruct C as [CI CC]. rewrite CI, EZ. destruct (cached c (p_lat ref) (p_lon ref)) as [idx|] eqn:EC.
  - apply FIN; [|split; auto]. apply (cached_ok h data kd c); [split; auto|exact EC].
  - assert (W : exact_list (fun i => (i < length data)%nat /\ row_distance (nth i (map position data) []) (position ref) <= Q2R h) (within_distance kd (position ref) (Q2R h))).
    { pose proof (within_exact (map position data) kd (position ref) (Q2R h)) as X. rewrite map_length in X. apply X; auto.
      - unfold rows_of_length. rewrite Forall_map, Forall_forall. reflexivity.
      - rewrite Forall_map. exact HL.
      - intros a b A B. apply in_map_iff in A. apply in_map_iff in B. destruct A as (a' & <- & A), B as (b' & <- & B). cbn [position nth]. apply N1; auto.
      - intros a A. apply in_map_iff in A. destruct A as (a' & <- & A). cbn [position nth]. apply N2; [auto|left; auto]. }
    apply FIN; [exact W|]. split; [exact eq_refl|]. cbn [c_cache]. constructor; auto.
Qed.
Lemma limited_all refs : forall c, con_ok h data kd c -> Forall positive_pressure refs -> Forall has_latitude refs -> longitudes_near data refs ->
  exists outs, constrain_all (Some h) a_sep p_sep t_sep dcols scols c refs data = Ok outs /\ one_for_each (should_keep (Some h) a_sep p_sep t_sep) data refs outs.
Proof.
  induction refs as [|ref refs IH]; intros c C F L [N1 N2]; cbn [constrain_all]; [exists []; split; [auto|constructor]|].
  inversion F as [|? ? F1 F2]; subst. inversion L as [|? ? L1 L2]; subst.
  destruct (limited c ref C F1 L1) as (c' & out & l & E & C' & K & P). { split; auto. intros a s A [<-|[]]. apply N2; [auto|left; auto]. }
  destruct (IH c' C' F2 L2) as (outs & E2 & O). { split; auto. intros a s A I. apply N2; [auto|right; auto]. }
  rewrite E. cbn [bind fst snd]. rewrite E2. cbn [bind]. exists (out :: outs). split; auto. constructor; eauto.
Qed.
End Constraint.
Theorem constraint_exact h_sep a_sep p_sep t_sep dcols scols data samples : columns_for a_sep p_sep t_sep dcols -> columns_for a_sep p_sep t_sep scols ->
  Forall positive_pressure data -> Forall positive_pressure samples -> Forall has_latitude data -> Forall has_latitude samples -> longitudes_near data samples -> data <> [] ->
  exists outs, bind (index_data new_constraint data) (fun c => constrain_all h_sep a_sep p_sep t_sep dcols scols c samples data) = Ok outs /\ one_for_each (should_keep h_sep a_sep p_sep t_sep) data samples outs.
Proof.
  intros HD HS HP HQ HL HM HN NE. assert (RL : rows_of_length 2 (map position data)) by (unfold rows_of_length; rewrite Forall_map, Forall_forall; reflexivity).
  destruct (kdtree_spec (map position data) 2 10) as (kd & HK & _); [lia|destruct data; [congruence|discriminate]|exact RL|lia|]. unfold index_data. rewrite HK. cbn [bind].
  assert (U : h_sep = None \/ (exists h, h_sep = Some h /\ (h == 0)%Q) -> exists outs, constrain_all h_sep a_sep p_sep t_sep dcols scols (mkCon (Some kd) (c_cache new_constraint)) samples data = Ok outs /\ one_for_each (should_keep h_sep a_sep p_sep t_sep) data samples outs).
  { intros Z. destruct (unlimited_all a_sep p_sep t_sep dcols scols data HD HS HP h_sep (mkCon (Some kd) (c_cache new_constraint)) samples HQ) as (outs & E & O); [tauto|]. exists outs. split; auto.
    unfold one_for_each in *. clear -O Z. induction O as [|s out ss os (l & K & P) O IH]; constructor; auto. exists l. split; auto. eapply kept_iff; [|exact K]. intros x. unfold should_keep. split; [|tauto].
    intros H. split; auto. intros h' E NZ. destruct Z as [Z|(h2 & Z & Z2)]; congruence. }
  destruct h_sep as [h|]; [|apply U; auto]. destruct (Qeq_dec h 0) as [Z|Z]; [apply U; eauto|].
  apply (limited_all a_sep p_sep t_sep dcols scols data HD HS HP h kd Z HK HL); auto. split; [reflexivity|constructor].
Qed.
(** the data given are fewer than those indexed, and one that is not among them is near *)
Theorem fewer_rows h a_sep p_sep t_sep dcols scols first data ref i d : ~ (h == 0)%Q -> Forall has_latitude first -> has_latitude ref -> longitudes_near first [ref] ->
  nth_error first i = Some d -> (length data <= i)%nat -> surface_distance d ref <= Q2R h ->
  bind (index_data new_constraint first) (fun c => constrain_points (Some h) a_sep p_sep t_sep dcols scols c ref data) = Raises IndexError.
Proof.
  intros NZ HL LR [N1 N2] Ei Hi Hd. assert (RL : rows_of_length 2 (map position first)) by (unfold rows_of_length; rewrite Forall_map, Forall_forall; reflexivity).
  destruct (kdtree_spec (map position first) 2 10) as (kd & HK & _); [lia|destruct first, i; discriminate|exact RL|lia|]. unfold index_data. rewrite HK. cbn [bind].
  unfold constrain_points. cbn [c_index]. assert (EZ : Qeqb h 0 = false). { destruct (Qeqb h 0) eqn:EQ; auto. apply Qeqb_eq in EQ. contradiction. } rewrite EZ. cbn [cached new_constraint c_cache find option_map].
  change (cached (mkCon (Some kd) []) (p_lat ref) (p_lon ref)) with (@None (list nat)). cbv iota.
  assert (W : exact_list (fun i => (i < length first)%nat /\ row_distance (nth i (map position first) []) (position ref) <= Q2R h) (within_distance kd (position ref) (Q2R h))).
    { pose proof (within_exact (map position first) kd (position ref) (Q2R h)) as X. rewrite map_length in X. apply X; auto.
      - rewrite Forall_map. exact HL.
      - intros a b A B. apply in_map_iff in A. apply in_map_iff in B. destruct A as (a' & <- & A), B as (b' & <- & B). cbn [position nth]. apply N1; auto.
      - intros a A. apply in_map_iff in A. destruct A as (a' & <- & A). cbn [position nth]. apply N2; [auto|left; auto]. }
  replace (take_rows data (within_distance kd (position ref) (Q2R h))) with (@Raises (list prow) IndexError); [reflexivity|].
  symmetry. unfold take_rows. replace (forallb _ _) with false; auto. symmetry. apply Bool.not_true_is_false. intros F. rewrite forallb_forall in F.
  assert (I : In i (within_distance kd (position ref) (Q2R h))). { apply W. split; [apply nth_error_Some; congruence|]. rewrite (nth_error_nth _ _ [] (map_nth_error position _ _ Ei)). exact Hd. }
  apply F in I. apply Nat.ltb_lt in I. lia.
Qed.
