(** Proofs for C45. *)
From Verif Require Import Base QBase IndexModel IndexSpec IndexProofs InterpModel ModisModel ModisSpec.
From Coq Require Import List Lia Arith.
Import ListNotations.
Open Scope list_scope. Open Scope nat_scope.

(** ** Hyperslabs *)
Lemma map_add_seq x n : forall z, map (fun j => x + j) (seq z n) = seq (x + z) n.
Proof. induction n as [|n IH]; intros z; [reflexivity|]. cbn [seq map]. f_equal. rewrite IH. f_equal. lia. Qed.
Lemma flat_map_seq c : forall n a b, flat_map (fun i => map (fun j => b + (i * c + j)) (seq 0 c)) (seq a n) = seq (b + a * c) (n * c).
Proof.
  induction n as [|n IH]; intros a b; [reflexivity|]. cbn [seq flat_map]. rewrite IH. replace (S n * c) with (c + n * c) by lia. rewrite seq_app. f_equal; [|f_equal; lia].
  rewrite (map_ext _ (fun j => (b + a * c) + j)) by (intros; lia). rewrite map_add_seq, Nat.add_0_r. reflexivity.
Qed.
Lemma product_flat dims : map (flat_pos dims) (product (map (seq 0) dims)) = seq 0 (cells dims).
Proof.
  induction dims as [|n s IH]; [reflexivity|]. cbn [map product cells]. rewrite flat_map_concat_map, concat_map, map_map, <- flat_map_concat_map.
  rewrite (flat_map_ext _ (fun i => map (fun j => 0 + (i * cells s + j)) (seq 0 (cells s)))); [apply flat_map_seq|]. intros i. rewrite map_map. cbn [flat_pos]. rewrite <- IH, map_map. reflexivity.
Qed.
Lemma product_lengths dims idx : In idx (product (map (seq 0) dims)) -> length idx = length dims.
Proof.
  revert idx. induction dims as [|n s IH]; intros idx H; cbn [map product] in H; [destruct H as [<-|[]]; reflexivity|]. apply in_flat_map in H. destruct H as (i & _ & H). apply in_map_iff in H. destruct H as (r & <- & H). cbn. f_equal. auto.
Qed.
Lemma product_valid dims idx : In idx (product (map (seq 0) dims)) -> valid_index dims idx.
Proof.
  revert idx. induction dims as [|n s IH]; intros idx H; cbn [map product] in H; [destruct H as [<-|[]]; constructor|]. apply in_flat_map in H. destruct H as (i & Hi & H). apply in_map_iff in H. destruct H as (r & <- & H). apply in_seq in Hi. constructor; [lia|]. apply IH, H.
Qed.
Lemma product_ones n t : product (map (seq 0) (repeat 1 n ++ t)) = map (app (repeat 0 n)) (product (map (seq 0) t)).
Proof.
  induction n as [|n IH]; cbn [repeat app map product]; [rewrite map_id; reflexivity|]. change (seq 0 1) with [0]. cbn [flat_map]. rewrite app_nil_r. fold (repeat 1 n). rewrite IH, map_map. reflexivity.
Qed.
Lemma add_index_app a b c d : length a = length c -> add_index (a ++ b) (c ++ d) = add_index a c ++ add_index b d.
Proof. intros H. unfold add_index. revert c H. induction a as [|x a IH]; intros [|y c] H; try discriminate; [reflexivity|]. cbn. f_equal. apply IH. cbn in H. lia. Qed.
Lemma add_index_zeros a : add_index a (repeat 0 (length a)) = a.
Proof. induction a as [|x a IH]; [reflexivity|]. cbn [length repeat]. unfold add_index in *. cbn [combine map fst snd]. rewrite IH. f_equal. lia. Qed.
Lemma flat_pos_split s t a b : length a = length s -> flat_pos (s ++ t) (a ++ b) = flat_pos s a * cells t + flat_pos t b.
Proof.
  revert a. induction s as [|n s IH]; intros [|x a] H; try discriminate; [reflexivity|]. cbn [app flat_pos]. rewrite IH by (cbn in H; lia). rewrite cells_app. lia.
Qed.
Lemma map_nth_seq {A} (d : A) l n : forall k, k + n <= length l -> map (fun i => nth i l d) (seq k n) = firstn n (skipn k l).
Proof.
  induction n as [|n IH]; intros k H; [reflexivity|]. cbn [seq map]. rewrite IH by lia. assert (E : skipn k l = nth k l d :: skipn (S k) l).
  { clear IH. revert k H. induction l as [|a l IH]; intros k H; cbn in H; [lia|]. destruct k; [reflexivity|]. cbn [skipn nth]. apply IH. lia. }
  rewrite E. reflexivity.
Qed.
Lemma inside_at lead idx r c : valid_index lead idx -> inside (lead ++ [r; c]) (idx ++ [0; 0]) (repeat 1 (length idx) ++ [r; c]) = true.
Proof.
  intros V. unfold inside. pose proof (Forall2_length _ _ _ V) as L.
  assert (B : forallb (fun d : nat * nat => fst d <=? snd d) (combine (add_index (idx ++ [0; 0]) (repeat 1 (length idx) ++ [r; c])) (lead ++ [r; c])) = true).
  { rewrite add_index_app by (rewrite repeat_length; auto). clear L. induction V as [|i n idx lead Hi V IH]; [cbn; rewrite !Nat.leb_refl; reflexivity|].
    unfold add_index in *. cbn [length repeat combine map fst snd app forallb] in *. rewrite IH. destruct (Nat.leb_spec (i + 1) n); [reflexivity|lia]. }
  rewrite B, !app_length, repeat_length, L, !Nat.eqb_refl. reflexivity.
Qed.
Lemma skipn_lead {A} (l : list A) a b : skipn (length (l ++ [a; b]) - 2) (l ++ [a; b]) = [a; b].
Proof. rewrite app_length. cbn [length]. replace (length l + 2 - 2) with (length l) by lia. rewrite skipn_app, skipn_all, Nat.sub_diag. reflexivity. Qed.
Lemma flat_pos_bound lead idx : valid_index lead idx -> flat_pos lead idx < cells lead.
Proof. intros V. induction V as [|i n idx lead Hi V IH]; cbn [flat_pos cells]; [lia|]. nia. Qed.
Lemma get_at_index lead idx s : file lead s -> valid_index lead idx -> sds_get (point_at idx s) = Ok (file_slice lead (flat_pos lead idx) s).
Proof.
  intros (r & c & D & L & _ & _) V. unfold sds_get, point_at. cbn [s_dims s_values s_start s_count]. rewrite D, skipn_lead, inside_at by auto. f_equal. unfold file_slice, slice_size. rewrite D, skipn_app, skipn_all, Nat.sub_diag. cbn [app skipn].
  pose proof (Forall2_length _ _ _ V) as Li. rewrite product_ones, map_map. set (rc := cells [r; c]).
  assert (B : flat_pos lead idx * rc + rc <= length (s_values s)). { rewrite L, D, cells_app. fold rc. pose proof (flat_pos_bound _ _ V). nia. }
  rewrite <- (map_nth_seq 0%Z) by lia. replace (seq (flat_pos lead idx * rc) rc) with (map (fun j => flat_pos lead idx * rc + j) (map (flat_pos [r; c]) (product (map (seq 0) [r; c])))).
  - rewrite !map_map. apply map_ext_in. intros off Ho. f_equal. apply product_lengths in Ho. rewrite add_index_app by (rewrite repeat_length; auto). rewrite add_index_zeros, flat_pos_split by auto. f_equal. destruct off as [|a [|b [|]]]; try discriminate. reflexivity.
  - rewrite product_flat. fold rc. rewrite map_add_seq, Nat.add_0_r. reflexivity.
Qed.
Lemma read_at_index lead idx var : Forall (file lead) var -> valid_index lead idx -> read_all (map (point_at idx) var) = Ok (slice lead (flat_pos lead idx) var).
Proof.
  intros F V. induction F as [|s var Hs F IH]; [reflexivity|]. cbn [map read_all]. rewrite (get_at_index lead) by auto. cbn [bind]. rewrite IH. reflexivity.
Qed.
Lemma point_again i j s : point_at i (point_at j s) = point_at i s. Proof. reflexivity. Qed.

(** ** The loop *)
Lemma nth_product dims k idx : nth_error (product (map (seq 0) dims)) k = Some idx -> valid_index dims idx /\ flat_pos dims idx = k.
Proof.
  intros E. split; [apply product_valid; eapply nth_error_In; eauto|]. pose proof (map_nth_error (flat_pos dims) _ _ E) as H. rewrite product_flat in H. assert (L : k < cells dims) by (assert (X : nth_error (seq 0 (cells dims)) k <> None) by congruence; apply nth_error_Some in X; rewrite seq_length in X; exact X).
  rewrite (nth_error_nth' _ 0) in H by (rewrite seq_length; auto). rewrite seq_nth in H by auto. injection H as <-. reflexivity.
Qed.
(** what the elements hold after k slices *)
Definition shown (lead : list nat) (var : list sds) (k : nat) : list (option (list Z)) :=
  match k with O => [] | S O => [None] | S (S m) => Some (slice lead 1 var) :: map (fun i => Some (slice lead i var)) (seq 1 (S m)) end.
Lemma set_nth_last {A} (l : list A) x y : set_nth (length l) y (l ++ [x]) = l ++ [y].
Proof. apply set_nth_app_here. Qed.
Lemma fill_step lead var idx k st : Forall (file lead) var -> valid_index lead idx -> flat_pos lead idx = k -> (exists j, readers st = var \/ readers st = map (point_at j) var) -> elements st = shown lead var k ->
  append (mkState (map (point_at idx) (readers st)) (elements st)) = Ok (mkState (map (point_at idx) var) (shown lead var (S k))).
Proof.
  intros F V K (j & R) E. assert (R' : map (point_at idx) (readers st) = map (point_at idx) var) by (destruct R as [->| ->]; [reflexivity|rewrite map_map; reflexivity]). rewrite R', E. pose proof (read_at_index lead idx var F V) as RA. rewrite K in RA. unfold append. cbn [readers elements]. destruct k as [|[|m]].
  - reflexivity.
  - cbn [shown length app Nat.ltb Nat.leb]. unfold load at 1. cbn [elements readers nth_error]. rewrite RA. cbn [bind set_nth]. unfold load. cbn [elements readers nth_error]. rewrite RA. reflexivity.
  - set (l := shown lead var (S (S m))). assert (Ll : length l = S (S m)) by (unfold l; cbn [shown length]; rewrite map_length, seq_length; reflexivity). rewrite Ll. cbn [Nat.ltb Nat.leb]. unfold load at 1. cbn [elements readers]. unfold l at 1. cbn [shown app nth_error bind].
    unfold load. cbn [elements readers]. rewrite nth_error_app2 by lia. rewrite Ll, Nat.sub_diag. cbn [nth_error]. rewrite RA. cbn [bind]. f_equal. f_equal. pose proof (set_nth_last l None (Some (slice lead (S (S m)) var))) as X. rewrite Ll in X. rewrite X. unfold l. cbn [shown app]. f_equal. rewrite (seq_S (S m)), map_app. reflexivity.
Qed.
Lemma fill_all lead var : Forall (file lead) var -> forall all k st, (forall i idx, nth_error all i = Some idx -> valid_index lead idx /\ flat_pos lead idx = k + i) ->
  (exists j, readers st = var \/ readers st = map (point_at j) var) -> elements st = shown lead var k ->
  exists rs, fill all st = Ok (mkState rs (shown lead var (k + length all))) /\
    (all = [] /\ rs = readers st \/ exists idx, last all [] = idx /\ all <> [] /\ rs = map (point_at idx) var).
Proof.
  intros F. induction all as [|idx all IH]; intros k st H R E; cbn [fill].
  - exists (readers st). rewrite Nat.add_0_r. destruct st as [rs es]. cbn in *. subst. split; auto.
  - destruct (H 0 idx eq_refl) as [V K]. rewrite Nat.add_0_r in K. rewrite (fill_step lead var idx k st F V K R E). cbn [bind].
    destruct (IH (S k) (mkState (map (point_at idx) var) (shown lead var (S k)))) as (rs & E1 & E2).
    + intros i idx' Hi. destruct (H (S i) idx' Hi) as [V' K']. split; auto. lia.
    + exists idx. right. reflexivity.
    + reflexivity.
    + exists rs. rewrite E1. split; [f_equal; f_equal; cbn [length]; f_equal; lia|]. right. destruct E2 as [[-> ->]|(x & X1 & X2 & ->)].
      * exists idx. split; auto. split; [discriminate|reflexivity].
      * exists x. split; [destruct all; [congruence|exact X1]|]. split; [discriminate|reflexivity].
Qed.
(** ** Later accesses *)
Lemma loaded_access ks : forall st, Forall (fun e => e <> None) (elements st) -> Forall (fun k => k < length (elements st)) ks -> access ks st = Ok st.
Proof.
  induction ks as [|k ks IH]; intros st A B; [reflexivity|]. apply Forall_cons_iff in B. destruct B as [B1 B]. cbn [access]. unfold load. destruct (nth_error (elements st) k) as [[v|]|] eqn:E; [cbn [bind]; auto| |].
  - exfalso. rewrite Forall_forall in A. apply (A None); auto. eapply nth_error_In; eauto.
  - apply nth_error_None in E. lia.
Qed.
Lemma create_state lead var : Forall (file lead) var -> var <> [] -> lead <> [] ->
  exists rs, create_data_object var = Ok (mkState rs (shown lead var (cells lead))) /\ (cells lead = 0 \/ exists idx, valid_index lead idx /\ flat_pos lead idx = cells lead - 1 /\ rs = map (point_at idx) var).
Proof.
  intros F N L. unfold create_data_object. destruct var as [|v vs]; [congruence|]. set (var := v :: vs) in *. assert (D : exists r c, s_dims v = lead ++ [r; c]) by (apply Forall_inv in F; destruct F as (r & c & D & _); eauto). destruct D as (r & c & D).
  assert (Ln : length (s_dims v) = length lead + 2) by (rewrite D, app_length; reflexivity). assert (Ll : 0 < length lead) by (destruct lead; [congruence|cbn; lia]). rewrite Ln. destruct (Nat.eqb_spec (length lead + 2) 2); [lia|]. destruct (Nat.ltb_spec (length lead + 2) 2); [lia|].
  replace (firstn (length lead + 2 - 2) (s_dims v)) with lead by (rewrite D; replace (length lead + 2 - 2) with (length lead) by lia; rewrite firstn_app, firstn_all, Nat.sub_diag; cbn; rewrite app_nil_r; reflexivity).
  destruct (fill_all lead var F (product (map (seq 0) lead)) 0 (mkState var [])) as (rs & E1 & E2).
  - intros i idx Hi. apply nth_product in Hi. exact Hi.
  - exists []. left. reflexivity.
  - reflexivity.
  - assert (Lp : length (product (map (seq 0) lead)) = cells lead) by (pose proof (f_equal (@length nat) (product_flat lead)) as X; rewrite map_length, seq_length in X; exact X). exists rs. rewrite E1, Lp. split; [reflexivity|]. destruct E2 as [[E2 _]|(idx & X1 & X2 & X3)]; [left; rewrite <- Lp, E2; reflexivity|]. right. exists idx.
    assert (Hn : nth_error (product (map (seq 0) lead)) (cells lead - 1) = Some idx). { rewrite <- Lp. clear - X1 X2. generalize dependent (product (map (seq 0) lead)). intros l X1 X2. destruct l as [|a l] using rev_ind; [congruence|]. rewrite last_last in X1. subst a. rewrite app_length. cbn [length]. replace (length l + 1 - 1) with (length l) by lia. rewrite nth_error_app2, Nat.sub_diag by lia. reflexivity. }
    apply nth_product in Hn. destruct Hn. auto.
Qed.
Lemma shown_loaded lead var m : Forall (fun e => e <> None) (shown lead var (S (S m))).
Proof. cbn [shown]. constructor; [discriminate|]. apply Forall_forall. intros e He. apply in_map_iff in He. destruct He as (i & <- & _). discriminate. Qed.
Lemma shown_length lead var k : length (shown lead var k) = k.
Proof. destruct k as [|[|m]]; cbn [shown length]; auto. rewrite map_length, seq_length. reflexivity. Qed.
Lemma shown_nth lead var m k : k < S (S m) -> nth_error (shown lead var (S (S m))) k = Some (Some (slice lead (if k =? 0 then 1 else k) var)).
Proof.
  intros H. destruct k as [|k]; [reflexivity|]. cbn [shown nth_error Nat.eqb]. rewrite (map_nth_error (fun i => Some (slice lead i var)) k (seq 1 (S m)) (d := 1 + k)); [reflexivity|]. rewrite (nth_error_nth' _ 0) by (rewrite seq_length; lia). rewrite seq_nth by lia. reflexivity.
Qed.
Theorem modis_elements lead var : Forall (file lead) var -> var <> [] -> lead <> [] ->
  exists st, create_data_object var = Ok st /\ length (elements st) = cells lead /\
  forall ks, Forall (fun k => k < cells lead) ks -> exists st', access ks st = Ok st' /\ length (elements st') = cells lead /\
  forall k, k < cells lead -> look k st' = Ok (slice lead (if (k =? 0) && (2 <=? cells lead) then 1 else k) var).
Proof.
  intros F N L. destruct (create_state lead var F N L) as (rs & E & R). rewrite E. eexists. split; [reflexivity|]. cbn [elements]. split; [apply shown_length|]. intros ks K. destruct (cells lead) as [|[|m]] eqn:C.
  - assert (ks = []) as -> by (destruct ks; auto; apply Forall_inv in K; lia). eexists. split; [reflexivity|]. split; [reflexivity|]. intros; lia.
  - destruct R as [R|(idx & V & P & ->)]; [lia|]. pose proof (read_at_index lead idx var F V) as RA. rewrite P in RA. cbn in RA. cbn [shown].
    destruct ks as [|k ks].
    + eexists. split; [reflexivity|]. split; [reflexivity|]. intros k Hk. assert (k = 0) as -> by lia. unfold look, load. cbn [elements readers nth_error]. rewrite RA. reflexivity.
    + apply Forall_cons_iff in K. destruct K as [K1 K]. assert (k = 0) as -> by lia. cbn [access]. unfold load. cbn [elements readers nth_error]. rewrite RA. cbn [bind set_nth]. rewrite loaded_access; [|repeat constructor; discriminate|exact K]. eexists. split; [reflexivity|]. split; [reflexivity|]. intros k Hk. assert (k = 0) as -> by lia. reflexivity.
  - rewrite loaded_access; [|apply shown_loaded|cbn [elements]; rewrite shown_length; exact K]. eexists. split; [reflexivity|]. cbn [elements]. split; [apply shown_length|]. intros k Hk. unfold look, load. cbn [elements]. rewrite shown_nth by auto. cbn [bind elements]. rewrite shown_nth by auto. cbn [Nat.leb]. rewrite andb_true_r. reflexivity.
Qed.
(** two dimensions: all of it *)
Lemma map_nth_all {A} (d : A) l : map (fun i => nth i l d) (seq 0 (length l)) = l.
Proof. rewrite map_nth_seq by lia. cbn. apply firstn_all. Qed.
Lemma get_plain s : length (s_dims s) = 2 -> length (s_values s) = cells (s_dims s) -> s_start s = None -> s_count s = None -> sds_get s = Ok (s_values s).
Proof.
  intros D L S1 S2. unfold sds_get. rewrite S1, S2. assert (I : inside (s_dims s) (repeat 0 (length (s_dims s))) (s_dims s) = true). { destruct (s_dims s) as [|a [|b [|]]]; try discriminate. cbn. rewrite !Nat.leb_refl. reflexivity. }
  rewrite I. f_equal. transitivity (map (fun i => nth i (s_values s) 0%Z) (seq 0 (length (s_values s)))); [|apply map_nth_all]. rewrite L, <- product_flat, map_map. apply map_ext_in. intros off Ho. apply product_lengths in Ho. f_equal. f_equal. rewrite <- Ho. clear. induction off as [|x off IH]; [reflexivity|]. cbn [length repeat]. unfold add_index in *. cbn [combine map fst snd]. rewrite IH. reflexivity.
Qed.
Lemma read_plain var : Forall (file []) var -> read_all var = Ok (flat_map s_values var).
Proof.
  intros F. induction F as [|s var Hs F IH]; [reflexivity|]. cbn [read_all flat_map]. destruct Hs as (r & c & D & L & S1 & S2). rewrite get_plain by (auto; rewrite D; reflexivity). cbn [bind]. rewrite IH. reflexivity.
Qed.
Theorem modis_two var : Forall (file []) var -> var <> [] -> exists st, create_data_object var = Ok st /\ length (elements st) = 1 /\ look 0 st = Ok (flat_map s_values var).
Proof.
  intros F N. destruct var as [|v vs]; [congruence|]. unfold create_data_object. pose proof (Forall_inv F) as (r & c & D & _). rewrite D. cbn [app length Nat.eqb]. eexists. split; [reflexivity|]. split; [reflexivity|]. unfold look, load. cbn [elements nth_error readers]. rewrite read_plain by auto. reflexivity.
Qed.
