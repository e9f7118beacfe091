From Verif Require Import Base QBase KDModel KDSpec KDProofs KD2Proofs KD3Proofs KD4Proofs PqModel PqSpec PqProofs.
From Coq Require Import List Lia Sorted Lqa.
Import ListNotations.
Open Scope nat_scope.


Section Asked.
  Variables (pop : list entry -> option (entry * list entry)) (data : list (list Q)) (m : nat) (ls : Z) (kd : kdtree) (eps : Q) (p : pnorm) (ub : option Q).
  Hypothesis HP : heap_pop_contract pop.
  Hypothesis M : 0 < m.
  Hypothesis R : rows_of_length m data.
  Hypothesis K : KDTree data ls = Ok kd.
  Hypothesis HE : (0 <= eps)%Q.
  Hypothesis PP : p <> PN 0.
  Hypothesis UB : bound_ok ub.
  Lemma tree_facts : kd_data kd = data /\ length (kd_maxes kd) = m /\ data <> [] /\ (1 <= ls)%Z.
  Proof. destruct (built_ok data m ls kd M R K) as (A & B & C & D & _). auto. Qed.
  Lemma search_k x k : length x = m -> 1 <= k -> exists h, query pop kd x (Some k) eps p ub = Ok h /\ length h <= k.
  Proof.
    intros X KK. destruct tree_facts as (KD & KM & N & L). destruct (query_spec pop data m ls kd x (Some k) eps p ub HP M N R L K X ltac:(intros E; injection E as E; lia) PP HE UB) as (h & E & _ & _ & _ & LE & _). eauto.
  Qed.
  Lemma search_all x : length x = m -> exists h, query pop kd x None eps p ub = Ok h.
  Proof.
    intros X. destruct tree_facts as (KD & KM & N & L). destruct (query_spec pop data m ls kd x None eps p ub HP M N R L K X ltac:(discriminate) PP HE UB) as (h & E & _). eauto.
  Qed.
  Lemma searches xs k : Forall (fun x => length x = m) xs -> 1 <= k -> exists hs, Forall2 (fun x h => query pop kd x (Some k) eps p ub = Ok h /\ length h <= k) xs hs.
  Proof. intros F KK. apply forall2_choice. eapply Forall_impl; [|exact F]. intros x X. apply search_k; auto. Qed.
  Lemma searches_all xs : Forall (fun x => length x = m) xs -> exists hs, Forall2 (fun x h => query pop kd x None eps p ub = Ok h) xs hs.
  Proof. intros F. apply forall2_choice. eapply Forall_impl; [|exact F]. intros x X. apply search_all; auto. Qed.
  Lemma no_zero_norm {A} (a b : A) : (match p with PN O => true | _ => false end) = true -> a = b.
  Proof. destruct p as [[|]|]; congruence. Qed.
  Lemma checks_pass x : p_width x = m -> negb (p_width x =? length (kd_maxes kd)) = false /\ (match p with PN O => true | _ => false end) = false.
  Proof. intros W. destruct tree_facts as (_ & KM & _). rewrite W, KM, Nat.eqb_refl. split; [reflexivity|]. destruct p as [[|]|]; congruence. Qed.

  (** the two forms of an answer for one point *)
  Lemma single_k x k : length x = m -> 1 <= k -> exists h, query pop kd x (Some k) eps p ub = Ok h /\ length h <= k /\
    query_array pop kd eps p ub (alone m x) (Some (Z.of_nat k)) = Ok (Numbers (if k =? 1 then [] else [k]) (pad k h) (pad_i (length data) k h)).
  Proof.
    intros X KK. destruct (search_k x k X KK) as (h & E & L). exists h. split; [exact E|]. split; [exact L|]. unfold query_array. destruct (checks_pass (alone m x) eq_refl) as [C1 C2]. rewrite C1, C2.
    destruct tree_facts as (KD & _). rewrite KD. cbn [alone p_shape p_cells hd]. destruct (Nat.eqb_spec k 1) as [->|N].
    - cbn [Z.of_nat Z.eqb Pos.of_succ_nat Pos.eqb]. unfold search. rewrite E. cbn [bind]. destruct h as [|[d i] [|h2 h]]; [reflexivity|reflexivity|cbn [length] in L; lia].
    - destruct (Z.eqb_spec (Z.of_nat k) 1); [lia|]. destruct (Z.ltb_spec 1 (Z.of_nat k)); [|lia]. rewrite Nat2Z.id. unfold search. rewrite E. cbn [bind].
      pose proof (put_hits_spec (length data) h k 0 [] [] [] [] eq_refl eq_refl L) as PH. cbn [app] in PH. rewrite !app_nil_r in PH. cbv zeta. unfold nb in *. rewrite PH. reflexivity.
  Qed.
  Theorem array_k x k : well_shaped m x -> p_shape x <> [] -> 1 <= k -> exists dd ii,
    query_array pop kd eps p ub x (Some (Z.of_nat k)) = Ok (Numbers (p_shape x ++ (if k =? 1 then [] else [k])) dd ii) /\ length dd = length (p_cells x) * k /\ length ii = length (p_cells x) * k /\
    forall c y, nth_error (p_cells x) c = Some y -> query_array pop kd eps p ub (alone m y) (Some (Z.of_nat k)) = Ok (Numbers (if k =? 1 then [] else [k]) (part k c dd) (part k c ii)).
  Proof.
    intros (W & SZ & F) NS KK. destruct (searches (p_cells x) k F KK) as (hs & HS). destruct tree_facts as (KD & _).
    assert (LP : forall h, In h hs -> length h <= k). { intros h I. apply In_nth_error in I. destruct I as (c & C). clear -HS C. revert c C. induction HS as [|y h' ys hs [_ L] HS IH]; intros [|c] C; try discriminate; cbn in C; [injection C as <-; exact L|eapply IH, C]. }
    exists (concat (map (pad k) hs)), (concat (map (pad_i (length data) k) hs)).
    assert (FS : fill_numbers pop kd eps p ub k 0 (p_cells x) (repeat None (length (p_cells x) * k)) (repeat (length data) (length (p_cells x) * k)) = Ok (concat (map (pad k) hs), concat (map (pad_i (length data) k) hs))).
    { pose proof (fill_spec pop kd eps p ub k (p_cells x) hs 0 [] [] KK HS eq_refl eq_refl) as FS. rewrite KD in FS. exact FS. }
    split; [|split; [|split]].
    - unfold query_array. destruct (checks_pass x W) as [C1 C2]. rewrite C1, C2, KD. destruct (p_shape x) as [|s0 shape0] eqn:SH; [congruence|]. unfold cells_of. rewrite <- SZ. destruct (Nat.eqb_spec k 1) as [->|N].
      + cbn [Z.of_nat Pos.of_succ_nat]. change (1 <? 1)%Z with false. change (1 =? 1)%Z with true. cbn iota. rewrite Nat.mul_1_r in FS. rewrite FS. cbn [bind fst snd]. rewrite app_nil_r. reflexivity.
      + destruct (Z.ltb_spec 1 (Z.of_nat k)); [|lia]. cbv zeta. rewrite Nat2Z.id, FS. reflexivity.
    - rewrite (concat_length_k _ k) by (intros h I; apply pad_length, LP, I). rewrite (forall2_same_length _ _ _ HS). reflexivity.
    - rewrite (concat_length_k _ k) by (intros h I; apply pad_i_length, LP, I). rewrite (forall2_same_length _ _ _ HS). reflexivity.
    - intros c y Y. destruct (forall2_at _ _ _ HS c y Y) as (h & H & Q & L). rewrite (concat_part (pad k) k hs (fun h I => pad_length k h (LP h I)) c h H), (concat_part (pad_i (length data) k) k hs (fun h I => pad_i_length (length data) k h (LP h I)) c h H).
      assert (YM : length y = m). { rewrite Forall_forall in F. apply F. eapply nth_error_In, Y. } destruct (single_k y k YM KK) as (h' & E' & _ & S). rewrite Q in E'. injection E' as <-. exact S.
  Qed.
  Lemma single_all x : length x = m -> exists h, query pop kd x None eps p ub = Ok h /\ query_array pop kd eps p ub (alone m x) None = Ok (Lists [] [map fst h] [map snd h]).
  Proof.
    intros X. destruct (search_all x X) as (h & E). exists h. split; [exact E|]. unfold query_array. destruct (checks_pass (alone m x) eq_refl) as [C1 C2]. rewrite C1, C2. cbn [alone p_shape p_cells hd]. unfold search. rewrite E. reflexivity.
  Qed.
  Theorem array_all x : well_shaped m x -> p_shape x <> [] -> exists dd ii,
    query_array pop kd eps p ub x None = Ok (Lists (p_shape x) dd ii) /\ length dd = length (p_cells x) /\ length ii = length (p_cells x) /\
    forall c y, nth_error (p_cells x) c = Some y -> query_array pop kd eps p ub (alone m y) None = Ok (Lists [] [nth c dd []] [nth c ii []]).
  Proof.
    intros (W & SZ & F) NS. destruct (searches_all (p_cells x) F) as (hs & HS). exists (map (map fst) hs), (map (map snd) hs).
    split; [|split; [|split]].
    - unfold query_array. destruct (checks_pass x W) as [C1 C2]. rewrite C1, C2. destruct (p_shape x) as [|s0 shape0] eqn:SH; [congruence|]. unfold cells_of. rewrite <- SZ.
      pose proof (fill_lists_spec pop kd eps p ub (p_cells x) hs 0 [] [] HS eq_refl eq_refl) as FS. cbn [app] in FS. rewrite FS. reflexivity.
    - rewrite map_length. symmetry. eapply forall2_same_length, HS.
    - rewrite map_length. symmetry. eapply forall2_same_length, HS.
    - intros c y Y. destruct (forall2_at _ _ _ HS c y Y) as (h & H & Q). assert (YM : length y = m). { rewrite Forall_forall in F. apply F. eapply nth_error_In, Y. }
      destruct (single_all y YM) as (h' & E' & S). rewrite Q in E'. injection E' as <-. rewrite (nth_error_nth _ _ [] (map_nth_error (map fst) _ _ H)), (nth_error_nth _ _ [] (map_nth_error (map snd) _ _ H)). exact S.
  Qed.
  (** what is refused *)
  Theorem array_refused x k : p_width x = m -> p_shape x <> [] -> (k < 1)%Z -> query_array pop kd eps p ub x (Some k) = Raises ValueError.
  Proof.
    intros W NS L. unfold query_array. destruct (checks_pass x W) as [C1 C2]. rewrite C1, C2. destruct (p_shape x); [congruence|]. destruct (Z.ltb_spec 1 k); [lia|]. destruct (Z.eqb_spec k 1); [lia|reflexivity].
  Qed.
  Theorem single_negative x k : length x = m -> (k < 0)%Z -> query_array pop kd eps p ub (alone m x) (Some k) = Raises ValueError.
  Proof.
    intros X L. unfold query_array. destruct (checks_pass (alone m x) eq_refl) as [C1 C2]. rewrite C1, C2. cbn [alone p_shape]. destruct (Z.eqb_spec k 1); [lia|]. destruct (Z.ltb_spec 1 k); [lia|]. destruct (Z.eqb_spec k 0); [lia|reflexivity].
  Qed.
End Asked.
Theorem width_refused pop data m ls kd eps p ub x k : 0 < m -> rows_of_length m data -> KDTree data ls = Ok kd -> p_width x <> m -> query_array pop kd eps p ub x k = Raises ValueError.
Proof. intros M R K W. destruct (built_ok data m ls kd M R K) as (_ & _ & _ & KM & _). unfold query_array. rewrite KM. apply Nat.eqb_neq in W. rewrite W. reflexivity. Qed.
Theorem norm_refused pop kd eps ub x k : query_array pop kd eps (PN 0) ub x k = Raises ValueError.
Proof. unfold query_array. destruct (negb _); reflexivity. Qed.

(** ** without an error and a bound: the nearest *)
Lemma pad_answers k n h : length h <= k -> answers k n h (pad k h) (pad_i n k h).
Proof.
  intros L. split; [apply pad_length, L|]. split; [apply pad_i_length, L|]. intros j J. unfold pad, pad_i. destruct (nth_error h j) as [[d i]|] eqn:E.
  - assert (LT : j < length h) by (apply nth_error_Some; congruence). rewrite !nth_error_app1 by (rewrite map_length; exact LT). rewrite (map_nth_error _ _ _ E), (map_nth_error _ _ _ E). auto.
  - apply nth_error_None in E. rewrite !nth_error_app2 by (rewrite map_length; exact E). rewrite !map_length.
    assert (RP : forall {A} (v : A) a b, b < a -> nth_error (repeat v a) b = Some v) by (intros A v a; induction a as [|a IH]; intros [|b] B; try lia; cbn; [reflexivity|apply IH; lia]).
    rewrite !RP by (unfold nb in *; lia). auto.
Qed.
Section Exact.
  Variables (pop : list entry -> option (entry * list entry)) (data : list (list Q)) (m : nat) (ls : Z) (kd : kdtree) (p : pnorm).
  Hypothesis HP : heap_pop_contract pop.
  Hypothesis M : 0 < m.
  Hypothesis R : rows_of_length m data.
  Hypothesis K : KDTree data ls = Ok kd.
  Hypothesis PP : p <> PN 0.
  Theorem single_nearest x k : length x = m -> 1 <= k -> exists hits dd ii, nearest_ones p data x k hits /\ answers k (length data) hits dd ii /\
    query_array pop kd 0 p None (alone m x) (Some (Z.of_nat k)) = Ok (Numbers (if k =? 1 then [] else [k]) dd ii).
  Proof.
    intros X KK. destruct (query_exact_spec pop data m ls kd x k p HP M R K X KK PP) as (hits & E & L & ND & SS & F & A). destruct (single_k pop data m ls kd 0 p None HP M R K (Qle_refl 0) PP I x k X KK) as (h & E' & LH & S).
    rewrite E in E'. injection E' as <-. exists hits, (pad k hits), (pad_i (length data) k hits). split; [split; auto|]. split; [apply pad_answers, LH|exact S].
  Qed.
  Theorem array_nearest x k : well_shaped m x -> p_shape x <> [] -> 1 <= k -> exists dd ii,
    query_array pop kd 0 p None x (Some (Z.of_nat k)) = Ok (Numbers (p_shape x ++ (if k =? 1 then [] else [k])) dd ii) /\ length dd = length (p_cells x) * k /\ length ii = length (p_cells x) * k /\
    forall c y, nth_error (p_cells x) c = Some y -> exists hits, nearest_ones p data y k hits /\ answers k (length data) hits (part k c dd) (part k c ii).
  Proof.
    intros WS NS KK. destruct (array_k pop data m ls kd 0 p None HP M R K (Qle_refl 0) PP I x k WS NS KK) as (dd & ii & E & L1 & L2 & C). exists dd, ii. split; [exact E|]. split; [exact L1|]. split; [exact L2|].
    intros c y Y. specialize (C c y Y). assert (YM : length y = m). { destruct WS as (_ & _ & F). rewrite Forall_forall in F. apply F. eapply nth_error_In, Y. }
    destruct (single_nearest y k YM KK) as (hits & d2 & i2 & NO & AN & S). rewrite C in S. injection S as <- <-. exists hits. auto.
  Qed.
  (** all the points, nearest first *)
  Theorem single_all_points x : length x = m -> exists dd ii, query_array pop kd 0 p None (alone m x) None = Ok (Lists [] [dd] [ii]) /\ length dd = length ii /\ nearest_ones p data x (length data) (combine dd ii).
  Proof.
    intros X. destruct (tree_facts data m ls kd M R K) as (KD & KM & N & L).
    destruct (query_spec pop data m ls kd x None 0 p None HP M N R L K X ltac:(discriminate) PP (Qle_refl 0) I) as (h & E & SS & ND & F & _ & A).
    destruct (single_all pop data m ls kd 0 p None HP M R K (Qle_refl 0) PP I x X) as (h' & E' & S). rewrite E in E'. injection E' as <-. exists (map fst h), (map snd h). split; [exact S|]. split; [rewrite !map_length; reflexivity|].
    assert (CB : combine (map fst h) (map snd h) = h) by (clear; induction h as [|[d i] h IH]; cbn; [reflexivity|rewrite IH; reflexivity]). rewrite CB.
    assert (ALL : forall i, i < length data -> In i (map snd h)). { intros i I0. destruct (in_dec Nat.eq_dec i (map snd h)) as [J|J]; [exact J|]. destruct (A i I0 J) as [[]|[Q _]]. discriminate. }
    assert (INC : incl (map snd h) (seq 0 (length data))). { intros i J. apply in_map_iff in J. destruct J as (e & <- & J). rewrite Forall_forall in F. apply in_seq. destruct (F e J) as [Q _]. lia. }
    assert (INC' : incl (seq 0 (length data)) (map snd h)) by (intros i J; apply ALL; apply in_seq in J; lia).
    assert (LE : length h = length data). { pose proof (NoDup_incl_length ND INC) as L1. pose proof (NoDup_incl_length (seq_NoDup (length data) 0) INC') as L2. rewrite map_length, seq_length in L1, L2. unfold nb in *. lia. }
    split; [unfold nb in *; lia|]. split; [exact ND|]. split; [|split].
    - exact SS.
    - eapply Forall_impl; [|exact F]. intros e (E1 & E2 & _). split; [exact E1|]. rewrite E2. apply distance_power_eq. rewrite (row_len data m); auto.
    - intros i I0 J. destruct J. apply ALL, I0.
  Qed.
  (** no neighbours wanted of one point: an error, but another one *)
  Theorem single_zero x : length x = m -> query_array pop kd 0 p None (alone m x) (Some 0%Z) = Raises IndexError.
  Proof.
    intros X. destruct (single_all_points x X) as (dd & ii & S & LL & (L & _)). destruct (single_all pop data m ls kd 0 p None HP M R K (Qle_refl 0) PP I x X) as (h & E & S'). rewrite S in S'. injection S' as -> ->.
    unfold query_array. destruct (checks_pass data m ls kd p M R K PP (alone m x) eq_refl) as [C1 C2]. rewrite C1, C2. cbn [alone p_shape p_cells hd Z.eqb]. change (1 <? 0)%Z with false. cbn iota. unfold search. rewrite E. cbn [bind].
    destruct h as [|e h]; [|reflexivity]. cbn in L. destruct (tree_facts data m ls kd M R K) as (_ & _ & N & _). destruct data; [congruence|]. discriminate.
  Qed.
End Exact.
