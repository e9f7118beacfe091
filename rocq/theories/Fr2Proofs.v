From Verif Require Import Base PyStr QBase DateModel UngrModel UngrSpec UngrProofs FrModel FrSpec FrProofs.
From Coq Require Import Lia.
Open Scope list_scope. Open Scope nat_scope.

Lemma coords_frame ti u n cs : Forall (fun c => length (c_points c) = n) cs ->
  exists f, coords_as_data_frame ti u cs = Ok f /\ f_cols f = fold_left (fun d c => fset d (c_std c) (c_points c)) (filter (fun c => negb (labels ti c)) cs) [] /\ f_index f = last_time ti u cs None /\
    rectangular f /\ (f_rows f = n \/ f_rows f = 0 /\ f_cols f = []).
Proof.
  intros H. unfold coords_as_data_frame. rewrite collect_split. set (cols := fold_left _ _ _). set (t := last_time ti u cs None).
  assert (HC : Forall (fun c : option str * list (option Q) => length (snd c) = n) cols) by (apply fsets_lengths; [apply Forall_forall; intros c Hc; apply filter_In in Hc; rewrite Forall_forall in H; apply H; tauto|constructor]).
  assert (HI : match t with Some l => length l = n | None => True end) by (apply last_time_len; auto).
  destruct (data_frame_ok cols t n HC HI) as [E R]. rewrite E. eexists. split; [reflexivity|]. cbn [f_cols f_index]. split; [reflexivity|]. split; [reflexivity|]. split.
  - unfold rectangular. cbn [f_cols]. destruct R as [->|(_ & -> & _)]; [exact HC|constructor].
  - destruct R as [R|(_ & -> & R)]; auto.
Qed.
Lemma taken_len idx cs cs' : Forall2 (taken idx) cs cs' -> Forall (fun c => length (c_points c) = length idx) cs'.
Proof. induction 1 as [|c c' cs cs' [_ H] F IH]; constructor; auto. rewrite H. apply take_len. Qed.
Lemma column_name_eq name dname : match name with Some (a :: n) => a :: n | _ => dname end = column_name name dname.
Proof. destruct name as [[|a n]|]; [| |reflexivity]; unfold column_name; [destruct (str_eq_dec [] []); [reflexivity|congruence]|destruct (str_eq_dec (a :: n) []); [discriminate|reflexivity]]. Qed.

Lemma frame_built ti u name dname d : aligned d ->
  exists d' f, post_process d = Ok d' /\ Forall2 (taken (located_rows d)) (u_coords d) (u_coords d') /\ u_values d' = take_rows (located_rows d) None (u_values d) /\
    data_as_data_frame ti u name dname d = Ok f /\ rectangular f /\ f_rows f = length (located_rows d) /\
    f_cols f = fset (fold_left (fun d c => fset d (c_std c) (c_points c)) (column_coords ti d') []) (Some (column_name name dname)) (u_values d') /\
    (length (located_rows d) <> 0 -> f_index f = last_time ti u (u_coords d') None).
Proof.
  intros HA. destruct (post_taken d HA) as (d' & E & TC & TV). set (idx := located_rows d) in *. pose proof (taken_len _ _ _ TC) as TL.
  destruct (coords_frame ti u _ _ TL) as (f0 & E0 & C0 & I0 & R0 & N0).
  assert (LV : length (u_values d') = length idx) by (rewrite TV; apply take_len).
  destruct (set_column_ok f0 (Some (column_name name dname)) (u_values d') (length idx) R0 LV) as (f & E1 & C1 & R1 & N1 & I1 & I2).
  { destruct N0 as [N0|[N0 N0']]; auto. }
  exists d', f. split; auto. split; auto. split; auto. split; [unfold data_as_data_frame; rewrite E; cbn [bind]; rewrite E0; cbn [bind]; rewrite column_name_eq; exact E1|]. split; auto. split; auto.
  split; [rewrite C1, C0; reflexivity|]. intros NZ. destruct N0 as [N0|[N0 N0']].
  - rewrite (I1 NZ N0). exact I0.
  - rewrite (I2 N0). rewrite <- I0. symmetry. destruct (f_index f0) as [l|] eqn:FI; auto. exfalso. unfold f_rows in N0. rewrite FI in N0.
    assert (X := last_time_len ti u _ _ TL None Logic.I). rewrite <- I0 in X. cbv beta iota in X. lia.
Qed.

Theorem frame_columns ti u name dname d : aligned d ->
  exists d' f, post_process d = Ok d' /\ data_as_data_frame ti u name dname d = Ok f /\ rectangular f /\ f_rows f = length (located_rows d) /\ NoDup (names f) /\
    forall k v, In (k, v) (f_cols f) <-> (k = Some (column_name name dname) /\ v = u_values d') \/ (k <> Some (column_name name dname) /\ exists c, last_with k (column_coords ti d') c /\ v = c_points c).
Proof.
  intros HA. destruct (frame_built ti u name dname d HA) as (d' & f & E & _ & _ & EF & R & N & C & _). exists d', f. split; auto. split; auto. split; auto. split; auto.
  destruct (fsets_nodup (column_coords ti d') [] (NoDup_nil _)) as [N1 N2]. destruct (fset_in _ (Some (column_name name dname)) (u_values d') N1) as [M1 M2]. unfold names. rewrite C. split; auto.
  intros k v. rewrite M2, N2. split.
  - intros [?|[H [H1|[_ []]]]]; auto.
  - intros [?|[H H1]]; auto.
Qed.

(** ** distinct names *)
Lemma last_time_none ti u cs t : (forall c, In c cs -> labels ti c = false) -> last_time ti u cs t = t.
Proof. unfold last_time. revert t. induction cs as [|c cs IH]; intros t H; [reflexivity|]. cbn [fold_left]. rewrite (H c) by (left; auto). apply IH. intros; apply H; right; auto. Qed.
Lemma labels_std ti c : labels ti c = true -> c_std c = Some (lit "time").
Proof. unfold labels. destruct ti; [|discriminate]. cbn [andb]. destruct (c_std c) as [n|]; [|discriminate]. destruct (str_eq_dec n (lit "time")); [congruence|discriminate]. Qed.
Lemma last_time_find ti u cs : NoDup (map c_std cs) -> last_time ti u cs None = option_map (fun c => map (to_date u) (c_points c)) (find (labels ti) cs).
Proof.
  induction cs as [|c cs IH]; intros ND; [reflexivity|]. cbn [map] in ND. inversion ND as [|? ? N1 N2]; subst. unfold last_time. cbn [fold_left find]. destruct (labels ti c) eqn:L.
  - apply last_time_none. intros x Hx. destruct (labels ti x) eqn:Lx; auto. exfalso. apply labels_std in L, Lx. apply N1. rewrite L, <- Lx. apply in_map. auto.
  - apply IH. auto.
Qed.
Lemma taken_std idx cs cs' : Forall2 (taken idx) cs cs' -> map c_std cs' = map c_std cs.
Proof. induction 1 as [|c c' cs cs' [H _] F IH]; [reflexivity|]. cbn [map]. rewrite H, IH. reflexivity. Qed.
Lemma taken_labels ti idx c c' : taken idx c c' -> labels ti c' = labels ti c.
Proof. intros [H _]. unfold labels. rewrite H. reflexivity. Qed.
Lemma taken_filter ti idx cs cs' : Forall2 (taken idx) cs cs' -> Forall2 (taken idx) (filter (fun c => negb (labels ti c)) cs) (filter (fun c => negb (labels ti c)) cs').
Proof. induction 1 as [|c c' cs cs' H F IH]; [constructor|]. cbn [filter]. rewrite (taken_labels ti _ _ _ H). destruct (labels ti c); cbn [negb]; auto. Qed.
Lemma taken_find ti idx cs cs' : Forall2 (taken idx) cs cs' -> match find (labels ti) cs, find (labels ti) cs' with Some c, Some c' => taken idx c c' | None, None => True | _, _ => False end.
Proof. induction 1 as [|c c' cs cs' H F IH]; [exact I|]. cbn [find]. rewrite (taken_labels ti _ _ _ H). destruct (labels ti c); auto. Qed.
Lemma taken_cells idx cs cs' j : j < length idx -> Forall2 (taken idx) cs cs' -> map (fun c => nth j (c_points c) None) cs' = map (fun c => nth (nth j idx 0) (c_points c) None) cs.
Proof. intros Hj. induction 1 as [|c c' cs cs' [_ H] F IH]; [reflexivity|]. cbn [map]. rewrite H, take_nth, IH by auto. reflexivity. Qed.
Lemma nodup_filter {A B} (g : A -> B) (p : A -> bool) l : NoDup (map g l) -> NoDup (map g (filter p l)).
Proof.
  induction l as [|x l IH]; intros H; [constructor|]. cbn [map] in H. inversion H as [|? ? H1 H2]; subst. cbn [filter]. destruct (p x); auto. cbn [map]. constructor; auto.
  intros K. apply H1. apply in_map_iff in K. destruct K as (y & K1 & K2). apply filter_In in K2. rewrite <- K1. apply in_map. tauto.
Qed.
Lemma label_at u l j : j < length l -> nth j (map (to_date u) l) None = match nth j l None with Some t => Some (match u with UnitSince ref step => (ref + t * step)%Q | _ => t end) | None => None end.
Proof.
  intros H. rewrite (nth_indep _ None (to_date u None)) by (rewrite map_length; auto). rewrite map_nth. unfold to_date. destruct u; destruct (nth j l None); reflexivity.
Qed.
Theorem frame_table ti u name dname d : aligned d -> own_names ti (column_name name dname) d ->
  exists f, data_as_data_frame ti u name dname d = Ok f /\ rectangular f /\ names f = map c_std (column_coords ti d) ++ [Some (column_name name dname)] /\
    table f = map (data_row ti u d) (located_rows d).
Proof.
  intros HA [ND HN]. destruct (frame_built ti u name dname d HA) as (d' & f & E & TC & TV & EF & R & N & C & I). set (idx := located_rows d) in *. exists f. split; auto. split; auto.
  pose proof (taken_filter ti idx _ _ TC) as TF. fold (column_coords ti d) in TF. fold (column_coords ti d') in TF. pose proof (taken_std _ _ _ TF) as TS.
  assert (NDc : NoDup (map c_std (column_coords ti d'))) by (rewrite TS; unfold column_coords; apply nodup_filter; auto).
  rewrite (fsets_distinct (column_coords ti d') []) in C by exact NDc. cbn [app] in C.
  rewrite fset_keys in C. 2:{ rewrite map_map. intros K. change (In (Some (column_name name dname)) (map c_std (column_coords ti d'))) in K. rewrite TS in K. apply in_map_iff in K. destruct K as (c & K1 & K2). apply (HN c K2). auto. }
  split. { unfold names. rewrite C, map_app, map_map, <- TS. reflexivity. }
  unfold table. rewrite N. rewrite <- (map_seq_nth (data_row ti u d) idx). apply map_ext_in. intros j Hj. apply in_seq in Hj. assert (J : j < length idx) by lia.
  unfold frame_row, data_row. f_equal.
  - rewrite I by lia. rewrite last_time_find by (rewrite (taken_std _ _ _ TC); auto). unfold label_of. pose proof (taken_find ti idx _ _ TC) as TT.
    destruct (find (labels ti) (u_coords d)) as [c|], (find (labels ti) (u_coords d')) as [c'|]; try contradiction; [|reflexivity]. cbn [option_map]. f_equal. destruct TT as [_ TP]. rewrite TP.
    rewrite label_at by (rewrite take_len; auto). rewrite take_nth by auto. reflexivity.
  - rewrite C, map_app, map_map. cbn [map snd]. rewrite (taken_cells idx _ _ j J TF), TV, take_nth by auto. reflexivity.
Qed.

(** ** dropna *)
Lemma dropna_row f i : complete_row (f_cols f) i = forallb (fun o => negb (is_missing o)) (snd (frame_row f i)).
Proof. unfold complete_row, frame_row. cbn [snd]. induction (f_cols f) as [|c cols IH]; [reflexivity|]. cbn [map forallb]. rewrite IH. reflexivity. Qed.
Theorem dropna_table f : f_cols f <> [] -> rectangular f -> names (dropna f) = names f /\ rectangular (dropna f) /\
  table (dropna f) = filter (fun r : option (option Q) * list (option Q) => forallb (fun o => negb (is_missing o)) (snd r)) (table f).
Proof.
  intros NE R. set (rows := filter (complete_row (f_cols f)) (seq 0 (f_rows f))).
  assert (N : f_rows (dropna f) = length rows).
  { unfold f_rows, dropna. cbn [f_index f_cols]. fold rows. destruct (f_index f) as [l|]; cbn [option_map]; [apply take_len|]. destruct (f_cols f) as [|[k v] cols]; [congruence|]. cbn [map snd]. apply take_len. }
  split; [unfold names, dropna; cbn [f_cols]; rewrite map_map; reflexivity|]. split.
  { unfold rectangular. rewrite N. unfold dropna. cbn [f_cols]. apply Forall_forall. intros c Hc. apply in_map_iff in Hc. destruct Hc as (c0 & <- & _). cbn [snd]. apply take_len. }
  unfold table. rewrite N, filter_map. assert (F : filter (fun x => forallb (fun o => negb (is_missing o)) (snd (frame_row f x))) (seq 0 (f_rows f)) = rows) by (apply filter_ext; intros; symmetry; apply dropna_row).
  rewrite F. rewrite <- (map_seq_nth (frame_row f) rows). apply map_ext_in. intros j Hj. apply in_seq in Hj. unfold frame_row, dropna. cbn [f_index f_cols]. fold rows. f_equal.
  - destruct (f_index f); cbn [option_map]; [|reflexivity]. rewrite take_nth by lia. reflexivity.
  - rewrite map_map. cbn [snd]. apply map_ext_in. intros c Hc. rewrite take_nth by lia. reflexivity.
Qed.
(** ** the frames of collocation *)
Definition value_there (d : udata) (i : nat) : bool := match nth i (u_values d) None with Some _ => true | None => false end.
Theorem collocation_frames u dname d : aligned d -> own_names false (lit "vals") d ->
  exists fs fd, sample_frame u dname d = Ok fs /\ data_points_frame u dname d = Ok fd /\
    names fs = map c_std (u_coords d) ++ [Some (lit "vals")] /\ names fd = names fs /\
    table fs = map (data_row false u d) (located_rows d) /\
    table fd = map (data_row false u d) (filter (value_there d) (located_rows d)).
Proof.
  intros HA HO. destruct (frame_table false u (Some (lit "vals")) dname d HA HO) as (f & E & R & N & T). exists f. eexists. split; [exact E|]. split; [unfold data_points_frame, sample_frame, vals; rewrite E; reflexivity|].
  assert (NL : column_coords false d = u_coords d) by (unfold column_coords; apply filter_all; reflexivity). change (column_name (Some (lit "vals")) dname) with (lit "vals") in N. rewrite NL in N.
  destruct (dropna_table f) as (DN & _ & DT); auto. { intros K. unfold names in N. rewrite K in N. destruct (map c_std (u_coords d)); discriminate. }
  split; auto. split; auto. split; auto. rewrite DT, T, filter_map. f_equal. apply filter_ext_in. intros i Hi. unfold data_row. cbn [snd]. rewrite forallb_app, NL. cbn [forallb].
  apply filter_In in Hi. destruct Hi as [_ L]. unfold located_row in L. assert (X : forallb (fun o => negb (is_missing o)) (map (fun c => nth i (c_points c) None) (u_coords d)) = true).
  { rewrite forallb_forall in *. intros o Ho. apply in_map_iff in Ho. destruct Ho as (c & <- & Hc). specialize (L c Hc). destruct (nth i (c_points c) None); auto. }
  rewrite X. unfold value_there. destruct (nth i (u_values d) None); reflexivity.
Qed.

(** ** coordinates only *)
Theorem coordinates_frame ti u cs c0 : In c0 cs -> Forall (fun c => length (c_points c) = length (c_points c0)) cs -> NoDup (map c_std cs) -> (exists c, In c cs /\ labels ti c = false) ->
  let d := mkU cs [] (repeat None (length (c_points c0))) in
  exists f, coordinates_as_data_frame ti u cs = Ok f /\ names f = map c_std (column_coords ti d) /\
    table f = map (fun i => (label_of ti u d i, map (fun c => nth i (c_points c) None) (column_coords ti d))) (located_rows d).
Proof.
  intros I0 HL ND (cn & Icn & Lcn) d. assert (HA : aligned d) by (unfold aligned, d; cbn [u_coords u_values]; rewrite repeat_length; exact HL). destruct (post_taken d HA) as (d' & E & TC & TV). set (idx := located_rows d) in *.
  assert (P : post_process_coords cs = Ok (u_coords d')).
  { unfold post_process_coords. destruct cs as [|c1 cs1]; [contradiction|]. assert (L1 : length (c_points c1) = length (c_points c0)) by (inversion HL; auto). rewrite L1. unfold post_process, d in E. cbn [u_coords u_values] in E. rewrite repeat_length in E.
    destruct (missing_mask (length (c_points c0)) (c1 :: cs1)) as [mask|]; [|discriminate]. cbn [bind] in *. destruct (existsb (fun b => b) mask); injection E as <-; reflexivity. }
  unfold coordinates_as_data_frame. rewrite P. cbn [bind]. destruct (coords_frame ti u _ _ (taken_len _ _ _ TC)) as (f & EF & C & FI & R & N). exists f. split; auto.
  pose proof (taken_filter ti idx _ _ TC) as TF. fold (column_coords ti d) in TF. fold (column_coords ti d') in TF, C. pose proof (taken_std _ _ _ TF) as TS.
  rewrite (fsets_distinct (column_coords ti d') []) in C by (cbn [map app]; rewrite TS; unfold column_coords; apply nodup_filter; exact ND). cbn [app] in C.
  split. { unfold names. rewrite C, map_map. exact TS. }
  assert (N' : f_rows f = length idx). { destruct N as [N|[_ N]]; auto. exfalso. rewrite C in N. apply map_eq_nil in N. rewrite N in TF. inversion TF as [X|]. assert (K : In cn (column_coords ti d)) by (unfold column_coords; apply filter_In; split; [exact Icn|rewrite Lcn; reflexivity]). rewrite <- X in K. contradiction. }
  unfold table. rewrite N'. rewrite <- (map_seq_nth (fun i => (label_of ti u d i, map (fun c => nth i (c_points c) None) (column_coords ti d))) idx). apply map_ext_in. intros j Hj. apply in_seq in Hj. assert (J : j < length idx) by lia.
  unfold frame_row. f_equal.
  - rewrite FI, last_time_find by (rewrite (taken_std _ _ _ TC); exact ND). unfold label_of. pose proof (taken_find ti idx _ _ TC) as TT. 
    destruct (find (labels ti) (u_coords d)) as [c|], (find (labels ti) (u_coords d')) as [c'|]; try contradiction; [|reflexivity]. cbn [option_map]. f_equal. destruct TT as [_ TP]. rewrite TP.
    rewrite label_at by (rewrite take_len; auto). rewrite take_nth by auto. reflexivity.
  - rewrite C, map_map. cbn [snd]. rewrite (taken_cells idx _ _ j J TF). reflexivity.
Qed.

(** ** lists *)
Lemma NoDup_app_dis {A} (l m : list A) : NoDup l -> NoDup m -> (forall x, In x l -> ~ In x m) -> NoDup (l ++ m).
Proof.
  induction l as [|x l IH]; intros Hl Hm H; [exact Hm|]. inversion Hl as [|? ? H1 H2]; subst. cbn [app]. constructor; [|apply IH; auto; intros y Hy; apply H; right; auto].
  intros K. apply in_app_or in K. destruct K as [K|K]; [auto|]. apply (H x); [left; auto|auto].
Qed.
Lemma add_ok l : forall f, rectangular f -> f_cols f <> [] -> Forall (fun nd : str * udata => aligned (snd nd) /\ length (located_rows (snd nd)) = f_rows f) l -> NoDup (names f ++ map (fun nd : str * udata => Some (fst nd)) l) ->
  exists f', add_columns f l = Ok f' /\ rectangular f' /\ names f' = names f ++ map (fun nd : str * udata => Some (fst nd)) l /\ f_rows f' = f_rows f /\
    forall j, j < f_rows f -> frame_row f' j = (fst (frame_row f j), snd (frame_row f j) ++ map (fun nd : str * udata => nth (nth j (located_rows (snd nd)) 0) (u_values (snd nd)) None) l).
Proof.
  induction l as [|[n d] l IH]; intros f R NE HF ND; cbn [add_columns].
  - exists f. split; auto. split; auto. cbn [map]. rewrite app_nil_r. split; auto. split; auto. intros j Hj. rewrite app_nil_r. destruct (frame_row f j); reflexivity.
  - inversion HF as [|? ? [HA HL] HF']; subst. cbn [snd fst map] in *. destruct (post_taken d HA) as (d' & E & TC & TV). rewrite E. cbn [bind].
    assert (LV : length (u_values d') = f_rows f) by (rewrite TV, take_len; auto).
    destruct (set_column_ok f (Some n) (u_values d') (f_rows f) R LV (or_introl eq_refl)) as (f1 & E1 & C1 & R1 & N1 & I1 & I2). rewrite E1. cbn [bind].
    assert (NI : ~ In (Some n) (map fst (f_cols f))) by (intros K; apply NoDup_remove_2 in ND; apply ND, in_or_app; left; exact K). rewrite fset_keys in C1 by exact NI.
    assert (NM : names f1 = names f ++ [Some n]) by (unfold names; rewrite C1, map_app; reflexivity).
    destruct (IH f1) as (f' & E' & R' & N' & RR & FR); auto.
    { rewrite C1. intros K. apply app_eq_nil in K. destruct K; discriminate. }
    { rewrite N1. exact HF'. }
    { rewrite NM, <- app_assoc. exact ND. }
    exists f'. split; auto. split; auto. split; [rewrite N', NM, <- app_assoc; reflexivity|]. split; [congruence|]. intros j Hj. rewrite FR by lia. unfold frame_row at 1 2. cbn [fst snd]. rewrite (I1) by (auto; lia).
    f_equal. rewrite C1, map_app, <- app_assoc. cbn [map app snd]. rewrite TV, take_nth by lia. reflexivity.
Qed.
Theorem list_frame u n d l : aligned d -> Forall (fun nd : str * udata => aligned (snd nd) /\ length (located_rows (snd nd)) = length (located_rows d)) l ->
  own_names true n d -> NoDup (map fst ((n, d) :: l)) -> (forall nd c, In nd l -> In c (column_coords true d) -> c_std c <> Some (fst nd)) ->
  exists f, list_as_data_frame u ((n, d) :: l) = Ok f /\ names f = map c_std (column_coords true d) ++ map (fun nd : str * udata => Some (fst nd)) ((n, d) :: l) /\
    table f = map (fun j => let r := data_row true u d (nth j (located_rows d) 0) in (fst r, snd r ++ map (fun nd : str * udata => nth (nth j (located_rows (snd nd)) 0) (u_values (snd nd)) None) l)) (seq 0 (length (located_rows d))).
Proof.
  intros HA HF HO ND HN. destruct (frame_table true u None n d HA HO) as (f & E & R & N & T). change (column_name None n) with n in N. unfold list_as_data_frame. rewrite E. cbn [bind].
  assert (RW : f_rows f = length (located_rows d)). { assert (X := f_equal (@length _) T). unfold table in X. rewrite !map_length, seq_length in X. exact X. }
  destruct (add_ok l f) as (f' & E' & R' & N' & RR & FR); auto.
  { intros K. unfold names in N. rewrite K in N. destruct (map c_std (column_coords true d)); discriminate. }
  { rewrite RW. exact HF. }
  { rewrite N. rewrite <- app_assoc. cbn [app]. apply NoDup_app_dis.
    - unfold column_coords. apply nodup_filter. apply HO.
    - cbn [map fst] in ND. inversion ND as [|? ? N1 N2]; subst. constructor.
      + intros K. apply in_map_iff in K. destruct K as (x & K1 & K2). apply N1. injection K1 as <-. apply in_map. auto.
      + clear -N2. induction l as [|x l IH]; [constructor|]. cbn [map] in *. inversion N2 as [|? ? N3 N4]; subst. constructor; auto. intros K. apply in_map_iff in K. destruct K as (y & K1 & K2). injection K1 as K1. apply N3. rewrite <- K1. apply in_map. auto.
    - intros x H1 H2. apply in_map_iff in H1. destruct H1 as (c & <- & H1). destruct H2 as [H2|H2]; [apply (proj2 HO c H1); auto|]. apply in_map_iff in H2. destruct H2 as (y & H2 & H3). apply (HN y c H3 H1). auto. }
  exists f'. split; auto. split; [rewrite N', N, <- app_assoc; reflexivity|]. unfold table at 1. rewrite RR, RW. apply map_ext_in. intros j Hj. apply in_seq in Hj. rewrite FR by lia.
  assert (X : frame_row f j = data_row true u d (nth j (located_rows d) 0)).
  { assert (Y := f_equal (fun l => nth_error l j) T). cbv beta in Y. unfold table in Y. rewrite !nth_error_map in Y. rewrite nth_error_nth' with (d := 0) in Y by (rewrite seq_length; lia). rewrite seq_nth in Y by lia.
    rewrite (nth_error_nth' (located_rows d) 0) in Y by lia. assert (Z : forall A (a b : A), Some a = Some b -> a = b) by congruence. exact (Z _ _ _ Y). }
  rewrite X. reflexivity.
Qed.
Theorem list_lengths u n d m e l : aligned d -> aligned e -> located_rows d <> [] -> length (located_rows e) <> length (located_rows d) -> list_as_data_frame u ((n, d) :: (m, e) :: l) = Raises ValueError.
Proof.
  intros HA HE NZ NL. destruct (frame_built true u None n d HA) as (d' & f & E & _ & _ & EF & R & N & _). unfold list_as_data_frame. rewrite EF. cbn [bind add_columns].
  destruct (post_taken e HE) as (e' & E' & _ & TV). rewrite E'. cbn [bind]. rewrite set_column_differs; [reflexivity| |].
  - rewrite N. destruct (located_rows d); [congruence|discriminate].
  - rewrite N, TV, take_len. exact NL.
Qed.
