(** Proofs for C69, part 5: the whole. *)
From Coq Require Import String.
From Verif Require Import Base PyStr QBase LonModel LonSpec LonProofs DateModel DateProofs UngrModel UngrSpec UngrProofs SubsetModel SubsetSpec SubsetProofs AggModel AggProofs Agg3Proofs Agg4Proofs Subset3Proofs GColModel GCol2Proofs InterpModel InterpSpec InterpProofs Interp2Proofs GUModel GUSpec GUProofs GU2Proofs GU3Proofs GU4Proofs.
From Coq Require Import List Lia Lqa Arith QArith Qabs.
Import ListNotations.
Open Scope string_scope. Open Scope list_scope. Open Scope nat_scope. Notation length := List.length.

Lemma forall2_len {A B} (R : A -> B -> Prop) l m : Forall2 R l m -> length l = length m.
Proof. induction 1; cbn; auto. Qed.
Definition ready (s0 s : udata) (low : option Q) : Prop :=
  unique_standard_names (u_coords s) /\ same_but_turns s0 s /\ match low with Some l => convention s0 l /\ lon_state s l | None => forall c, In c (u_coords s) -> ~ lon_coord c end.
Definition rotated_to (low : option Q) (g : gdata) : res gdata := match low with Some l => rotate l g | None => Ok g end.
Lemma points_some s c : aligned s -> complete s -> In c (u_coords s) -> exists xs, c_points c = map Some xs /\ length xs = length (u_values s).
Proof.
  intros HA HC Hc. apply In_nth_error in Hc. destruct Hc as (k & Hk). assert (L : length (c_points c) = length (u_values s)) by (unfold aligned in HA; rewrite Forall_forall in HA; apply HA; eapply nth_error_In; eauto).
  assert (N : forall i, i < length (c_points c) -> nth i (c_points c) None <> None) by (intros i Hi; eapply complete_at; eauto). rewrite <- L. clear -N. induction (c_points c) as [|[x|] l IH].
  - exists []. auto.
  - destruct IH as (xs & E & L); [intros i Hi; apply (N (S i)); cbn; lia|]. exists (x :: xs). cbn. rewrite E, L, map_length. auto.
  - exfalso. apply (N 0); cbn; auto. lia.
Qed.
Lemma fix_both_first s : aligned s -> complete s -> unique_standard_names (u_coords s) -> u_values s <> [] ->
  exists s1 low, ready s s1 low /\ forall g, fix_both s g = bind (rotated_to low g) (fun g' => Ok (s1, g')).
Proof.
  intros HA HC HU HN. destruct (existsb (fun c => is_lon (c_std c)) (u_coords s)) eqn:E.
  - apply existsb_exists in E. destruct E as (c & Hc & Hl). apply is_lon_spec in Hl. destruct (points_some s c HA HC Hc) as (xs & Ep & Lx). assert (NX : xs <> []) by (intros ->; destruct (u_values s); [congruence|discriminate]).
    destruct (fix_first s c xs HU Hc Hl Ep NX) as (low1 & low2 & U1 & W1 & U2 & LS & CV & _). exists (fixed_sample low1 s), (Some low2). split; [split; [apply fixed_unique; auto|split; [apply fixed_turns; auto|split; auto]]|].
    intros g. unfold fix_both. rewrite U1. cbn [bind]. rewrite W1. cbn [bind]. rewrite U2. reflexivity.
  - assert (NL : forall c, In c (u_coords s) -> ~ lon_coord c).
    { intros c Hc Hl. assert (existsb (fun c => is_lon (c_std c)) (u_coords s) = true); [|congruence]. apply existsb_exists. exists c. split; auto. apply is_lon_spec. exact Hl. }
    exists s, None. split; [split; [auto|split; [apply turns_refl|auto]]|]. intros g. unfold fix_both. rewrite (udata_low_none s NL). cbn [bind]. rewrite (udata_low_none s NL). reflexivity.
Qed.
Lemma turns_aligned s s' : same_but_turns s s' -> aligned s -> aligned s'.
Proof. intros [V F] HA. unfold aligned in *. rewrite V. induction F as [|c c' cs cs' (I & L & _) F IH]; auto. apply Finv in HA. destruct HA as [H1 H2]. constructor; auto. congruence. Qed.
Lemma fix_both_next s0 s low : aligned s0 -> ready s0 s low -> exists s', ready s0 s' low /\ forall g, fix_both s g = bind (rotated_to low g) (fun g' => Ok (s', g')).
Proof.
  intros HA (HU & HT & HL). pose proof (turns_aligned _ _ HT HA) as HA'. destruct low as [l|].
  - destruct HL as [CV ((c & Hc & Hl) & HL)]. destruct (HL c Hc Hl) as (ys & Ep & NY & CY & RY). destruct (fix_first s c ys HU Hc Hl Ep NY) as (low1 & low2 & U1 & W1 & U2 & LS & _ & EQ). destruct (EQ l CY RY) as [-> ->].
    exists (fixed_sample l s). split; [split; [apply fixed_unique; auto|split; [eapply turns_trans; [exact HT|apply fixed_turns; auto]|split; auto]]|].
    intros g. unfold fix_both. rewrite U1. cbn [bind]. rewrite W1. cbn [bind]. rewrite U2. reflexivity.
  - exists s. split; [split; auto|]. intros g. unfold fix_both. rewrite (udata_low_none s HL). cbn [bind]. rewrite (udata_low_none s HL). reflexivity.
Qed.

(** ** the interpolator *)
Lemma turns_in s s' c : same_but_turns s s' -> In c (u_coords s) -> exists c', In c' (u_coords s') /\ identity_of c' = identity_of c /\ forall i x, nth i (c_points c) None = Some x -> exists x', nth i (c_points c') None = Some x' /\ if is_lon (c_std c) then same_meridian x x' else x' = x.
Proof.
  intros [_ F]. induction F as [|c0 c0' cs cs' (I & L & H) F IH]; [contradiction|]. intros [<-|Hc].
  - exists c0'. split; [left; auto|]. split; auto. intros i x Hx. assert (N : nth_error (c_points c0) i = Some (Some x)).
    { rewrite (nth_error_nth' (c_points c0) None); [congruence|]. destruct (Nat.lt_ge_cases i (length (c_points c0))); auto. rewrite nth_overflow in Hx by auto. discriminate. }
    destruct (H i x N) as (x' & Hx' & R). exists x'. split; auto. apply nth_error_nth; auto.
  - destruct (IH Hc) as (c' & A & B). exists c'. split; [right; auto|auto].
Qed.
Lemma turns_in_back s s' c' : same_but_turns s s' -> In c' (u_coords s') -> exists c, In c (u_coords s) /\ identity_of c' = identity_of c.
Proof. intros [_ F]. induction F as [|c0 c0' cs cs' (I & L & H) F IH]; [contradiction|]. intros [<-|Hc]; [exists c0; split; [left|]; auto|]. destruct (IH Hc) as (c & A & B). exists c. split; [right; auto|auto]. Qed.
Lemma name_of c nm : nm <> [] -> nm <> lit "unknown" -> c_name c = nm -> c_std c = Some nm \/ c_long c = nm \/ c_var c = nm.
Proof.
  intros N0 N1. unfold c_name. destruct (c_std c) as [[|a l]|]; [|intros <-; auto|]; (destruct (c_long c) as [|b m]; [|intros <-; auto]; destruct (c_var c) as [|v w]; [intros E; exfalso; apply N1; rewrite <- E; reflexivity|intros <-; auto]).
Qed.
Lemma find_by_name s s' g : same_but_turns s s' -> unique_standard_names (u_coords s') -> unique_standard_names (u_coords s) -> named_by s g ->
  exists c c', In c (u_coords s) /\ c_std c = gd_std g /\ In c' (u_coords s') /\ c_std c' = gd_std g /\ gd_std g <> None /\
    get_coord (u_coords s') (by_name (gd_name g)) = Ok c' /\ get_coords (u_coords s') (by_std (gd_name g)) = [c'] /\
    forall i x, nth i (c_points c) None = Some x -> exists x', nth i (c_points c') None = Some x' /\ if is_lon (gd_std g) then same_meridian x x' else x' = x.
Proof.
  intros HT HU' HU (nm & c & Eg & N0 & N1 & Hc & Ec & UN). destruct (turns_in _ _ _ HT Hc) as (c' & Hc' & I & HP). assert (Ec' : c_std c' = Some nm) by (unfold identity_of in I; congruence).
  exists c, c'. rewrite Eg. split; auto. split; auto. split; auto. split; auto. split; [discriminate|].
  assert (EN : gd_name g = nm) by (unfold gd_name; rewrite Eg; destruct nm; [congruence|reflexivity]). rewrite EN.
  assert (F1 : filter (matches (by_std nm)) (u_coords s') = [c']) by (apply filter_unique; auto).
  assert (F2 : filter (matches (by_name nm)) (u_coords s') = [c']).
  { rewrite <- F1. apply filter_ext_in. intros c2 H2. unfold matches, by_name, by_std. cbn. rewrite !andb_true_r. destruct (std_eqb (c_std c2) (Some nm)) eqn:S.
    - apply std_eqb_eq in S. apply str_eqb_eq. unfold c_name. rewrite S. destruct nm; [congruence|reflexivity].
    - destruct (str_eqb (c_name c2) nm) eqn:X; auto. apply str_eqb_eq in X. destruct (turns_in_back _ _ _ HT H2) as (c3 & H3 & I3).
      assert (c3 = c). { apply UN; auto. injection I3 as J1 J2 J3 J4. destruct (name_of c2 nm N0 N1 X) as [Y|[Y|Y]]; [left; rewrite <- J1|right; left; rewrite <- J2|right; right; rewrite <- J3]; exact Y. }
      subst c3. assert (c_std c2 = Some nm) by (unfold identity_of in I3; congruence). rewrite (proj2 (std_eqb_eq _ _) H) in S. discriminate. }
  split; [unfold get_coord, get_coords; rewrite F2; reflexivity|]. split; [exact F1|]. rewrite <- Ec. exact HP.
Qed.
Definition range_of (low : option Q) : Q := match low with Some l => l | None => 0%Q end.
Lemma interpolator_ok s0 s low dims g : aligned s0 -> complete s0 -> unique_standard_names (u_coords s0) -> ready s0 s low -> Forall (named_by s0) dims ->
  map (fun g => (gd_std g, gd_other g)) (g_dims g) = map (fun g => (gd_std g, gd_other g)) dims ->
  exists t, make_interpolator s g = Ok t /\ in_dims t = map gd_dim (g_dims g) /\ length (in_positions t) = length (u_values s0) /\
    forall i, i < length (u_values s0) -> exists ts, nth_error (in_positions t) i = Some (ts, is_missing (nth i (u_values s0) None)) /\ Forall2 (serves (range_of low) s0 i) dims ts.
Proof.
  intros HA HC HU0 (HU & HT & HL) HN EN.
  assert (FB : Forall2 (fun g1 g2 => gd_std g1 = gd_std g2 /\ gd_name g1 = gd_name g2) (g_dims g) dims).
  { clear -EN. revert dims EN. induction (g_dims g) as [|g1 l IH]; intros [|g2 m] E; try discriminate; constructor; [injection E as E1 E2 _; unfold gd_name; rewrite E1, E2; auto|apply IH; injection E as _ _ E; auto]. }
  unfold make_interpolator.
  assert (FS : filter (fun d => negb (length (get_coords (u_coords s) (by_std (gd_name d))) =? 0)) (g_dims g) = g_dims g).
  { apply filter_all. intros g1 H1. clear EN. induction FB as [|a b l m [A B] FB IH]; [contradiction|]. apply Finv in HN. destruct HN as [N1 N2]. destruct H1 as [<-|H1]; [|apply IH; auto]. destruct (find_by_name _ _ _ HT HU HU0 N1) as (c & c' & _ & _ & _ & _ & _ & _ & F & _). rewrite B, F. reflexivity. }
  rewrite FS.
  assert (MR : exists cs, map_res (fun d => get_coord (u_coords s) (by_name (gd_name d))) (g_dims g) = Ok cs /\ Forall2 (fun g2 c' => In c' (u_coords s) /\ c_std c' = gd_std g2 /\ exists c, In c (u_coords s0) /\ c_std c = gd_std g2 /\ forall i x, nth i (c_points c) None = Some x -> exists x', nth i (c_points c') None = Some x' /\ if is_lon (gd_std g2) then same_meridian x x' else x' = x) dims cs).
  { clear FS EN. induction FB as [|a b l m [A B] FB IH]; [exists []; split; [reflexivity|constructor]|]. apply Finv in HN. destruct HN as [N1 N2]. destruct (IH N2) as (cs & E & F). destruct (find_by_name _ _ _ HT HU HU0 N1) as (c & c' & X1 & X2 & X3 & X4 & _ & X5 & _ & X6).
    exists (c' :: cs). split; [cbn [map_res]; rewrite B, X5; cbn [bind]; rewrite E; reflexivity|]. constructor; auto. split; auto. split; auto. exists c. auto. }
  destruct MR as (cs & -> & FC). cbn [bind]. assert (LC : length cs = length (g_dims g)) by (rewrite <- (forall2_len _ _ _ FC); symmetry; apply (forall2_len _ _ _ FB)). rewrite LC, Nat.eqb_refl. cbn [negb].
  eexists. split; [reflexivity|]. split; [reflexivity|]. destruct HT as [HV _]. cbn [in_positions]. rewrite HV. split; [rewrite map_length, seq_length; reflexivity|].
  intros i Hi. rewrite nth_error_map, (nth_error_nth' (seq 0 (length (u_values s0))) 0) by (rewrite seq_length; auto). rewrite seq_nth by auto. cbn [option_map Nat.add]. eexists. split; [reflexivity|].
  clear -FC HA HC HL Hi. induction FC as [|g2 c' m cs (I1 & I2 & c & I3 & I4 & I5) FC IH]; cbn; constructor; auto.
  destruct (In_nth_error _ _ I3) as (k & Hk). destruct (complete_points s0 k c i HA HC Hk Hi) as (x & Hx). destruct (I5 i x Hx) as (x' & Hx' & R). rewrite Hx'. exists c, x. split; auto. split; auto. split; auto.
  destruct (is_lon (gd_std g2)) eqn:L; auto. split; auto. apply is_lon_spec in L. destruct low as [l|]; [|exfalso; apply (HL c' I1); unfold lon_coord; congruence]. destruct HL as [_ [_ HL]]. destruct (HL c' I1) as (ys & E & _ & _ & RY); [unfold lon_coord; congruence|].
  cbn. rewrite Forall_forall in RY. apply RY. rewrite E in Hx'. assert (i < length (map Some ys)). { destruct (Nat.lt_ge_cases i (length (map Some ys))); auto. rewrite nth_overflow in Hx' by auto. discriminate. }
  apply nth_In with (d := None) in H. rewrite Hx' in H. apply in_map_iff in H. destruct H as (y & [= ->] & H). exact H.
Qed.

(** ** one variable *)
Lemma located_iff s i dims pos : holds (map (place_of s i) dims) pos -> located_at dims s i pos.
Proof. revert pos. induction dims as [|g dims IH]; intros pos H; inversion H; subst; constructor; [auto|apply IH; auto]. Qed.
Theorem variable_ok m mdfms s0 low dims t g g' : placeable s0 g -> g_dims g = dims ->
  (match low with Some l => convention s0 l | None => forall c, In c (u_coords s0) -> ~ lon_coord c end) -> rotated_to low g = Ok g' ->
  in_dims t = map gd_dim (match low with Some l => turned_dims l dims | None => dims end) -> length (in_positions t) = length (u_values s0) ->
  (forall i, i < length (u_values s0) -> exists ts, nth_error (in_positions t) i = Some (ts, is_missing (nth i (u_values s0) None)) /\ Forall2 (serves (range_of low) s0 i) dims ts) ->
  u_values s0 <> [] -> exists rs, interpolated m mdfms t g' = Ok rs /\ answers m mdfms s0 g rs.
Proof.
  intros (_ & HNm & HD & HP & HF & HA) Ed HC HR ID LP HPos NV. subst dims.
  assert (K : forall i ts, Forall2 (serves (range_of low) s0 i) (g_dims g) ts -> g_dims g' = match low with Some l => turned_dims l (g_dims g) | None => g_dims g end /\ proper_dims (map gd_dim (g_dims g')) /\
     exists phis, all_carry (in_the_gap (g_dims g) s0 i) (map gd_dim (g_dims g)) (map gd_dim (g_dims g')) phis (map (place_of s0 i) (g_dims g)) ts /\ (forall e, length e = length (g_dims g) -> g_values g' e = g_values g (apply_all phis e))).
  { intros i ts HT. destruct low as [l|].
    - destruct (dims_carry l s0 i g ts HC HA HD HP HF HT) as (g2 & E2 & D2 & _ & P2 & phis & C2 & V2). cbn [rotated_to] in HR. rewrite E2 in HR. injection HR as <-. split; auto. split; auto. exists phis. auto.
    - cbn [rotated_to] in HR. injection HR as <-. split; auto. split; auto. exists (repeat (fun i => i) (length (g_dims g))). split; [|intros e _; rewrite apply_ids; reflexivity]. eapply same_dims_carry; eauto.
      apply Forall_forall. intros d Hd. destruct (is_lon (gd_std d)) eqn:L; auto. exfalso. apply is_lon_spec in L. rewrite Forall_forall in HNm. destruct (HNm d Hd) as (nm & c & E & _ & _ & Hc & Ec & _). apply (HC c Hc). unfold lon_coord. congruence. }
  assert (L0 : 0 < length (u_values s0)) by (destruct (u_values s0); [congruence|cbn; lia]). destruct (HPos 0 L0) as (ts0 & _ & T0). destruct (K 0 ts0 T0) as (D' & P' & _). rewrite <- D' in ID.
  unfold interpolated. rewrite ID, map_length, Nat.eqb_refl. cbn [negb].
  replace (forallb (fun dd : gdim * dim => length (d_points (gd_dim (fst dd))) =? length (d_points (snd dd))) (combine (g_dims g') (map gd_dim (g_dims g')))) with true.
  2: { symmetry. apply forallb_forall. intros [d1 d2] Hd. cbn. clear -Hd. induction (g_dims g') as [|a l IH]; [contradiction|]. destruct Hd as [[= <- <-]|Hd]; [apply Nat.eqb_refl|auto]. }
  cbn [negb].
  assert (LD : length (g_dims g') = length (g_dims g)).
  { destruct (K 0 ts0 T0) as (_ & _ & phis & C & _). apply all_carry_length in C. rewrite !map_length in C. symmetry. apply C. }
  assert (PI : positions_in (map gd_dim (g_dims g')) (in_positions t)).
  { apply Forall_forall. intros [ts fl] Hp. apply In_nth_error in Hp. destruct Hp as (i & Hi). assert (i < length (u_values s0)) by (rewrite <- LP; apply nth_error_Some; congruence). destruct (HPos i H) as (ts' & Hi' & F). rewrite Hi in Hi'. injection Hi' as -> _. cbn. rewrite map_length, LD. symmetry. apply (forall2_len _ _ _ F). }
  assert (RES : exists results, interpolate m (map gd_dim (g_dims g')) (g_values g') mdfms false (in_positions t) = Ok results /\ Forall2 (right_answer m (map gd_dim (g_dims g')) (g_values g') mdfms false) (in_positions t) results).
  { destruct m; [apply linear_answers; auto|]. apply nearest_answers; auto. pose proof (proper_nonempty _ P') as NE. unfold proper_dims in P'. rewrite Forall_forall in *. intros d Hd. destruct (P' d Hd) as [A [B _]]. split; auto. }
  destruct RES as (rs & -> & FR). exists rs. split; auto. split; [rewrite <- LP; symmetry; apply (forall2_len _ _ _ FR)|]. intros i Hi. destruct (HPos i Hi) as (ts & Ei & Ti). destruct (K i ts Ti) as (_ & _ & phis & C & V).
  assert (RA : right_answer m (map gd_dim (g_dims g')) (g_values g') mdfms false (ts, is_missing (nth i (u_values s0) None)) (nth i rs None)).
  { revert Ei. generalize (is_missing (nth i (u_values s0) None)). intros fl Ei. clear -FR Ei. revert i Ei. induction FR as [|p r ps rs H FR IH]; intros [|i] E; cbn in *; try discriminate; [injection E as ->; auto|apply IH; auto]. }
  assert (V' : forall e, length e = length (map gd_dim (g_dims g')) -> g_values g' e = g_values g (apply_all phis e)) by (intros e He; apply V; rewrite map_length, LD in He; auto).
  destruct m; cbn [right_answer] in *.
  - destruct (transfer_linear _ _ _ _ _ _ (g_values g) (g_values g') mdfms _ _ C V' RA) as (pos & Hp & R). exists pos. split; [apply located_iff; auto|auto].
  - destruct (transfer_nearest _ _ _ _ _ _ (g_values g) (g_values g') mdfms _ _ C V' RA) as (pos & Hp & R). exists pos. split; [apply located_iff; auto|auto].
Qed.
Lemma rotated_ok low s g : placeable s g -> exists g', rotated_to low g = Ok g' /\ g_dims g' = match low with Some l => turned_dims l (g_dims g) | None => g_dims g end.
Proof. intros (_ & _ & _ & _ & _ & HA). destruct low as [l|]; [|exists g; auto]. destruct (rotate_dims l g HA) as (g' & E & D & _). exists g'. auto. Qed.
Lemma rest_ok m mdfms s0 low dims t : aligned s0 -> u_values s0 <> [] ->
  in_dims t = map gd_dim (match low with Some l => turned_dims l dims | None => dims end) -> length (in_positions t) = length (u_values s0) ->
  (forall i, i < length (u_values s0) -> exists ts, nth_error (in_positions t) i = Some (ts, is_missing (nth i (u_values s0) None)) /\ Forall2 (serves (range_of low) s0 i) dims ts) ->
  (match low with Some l => convention s0 l | None => forall c, In c (u_coords s0) -> ~ lon_coord c end) ->
  forall gs s, ready s0 s low -> (forall g, In g gs -> placeable s0 g /\ g_dims g = dims) ->
  exists rs s' gs', collocate_all m mdfms (Some t) s gs = Ok (rs, s', gs') /\ same_but_turns s0 s' /\ Forall2 (fun g r => answers m mdfms s0 g r) gs rs.
Proof.
  intros HA NV ID LP HPos HC. induction gs as [|g gs IH]; intros s HR HG; [exists [], s, []; split; [reflexivity|]; split; [apply HR|constructor]|].
  destruct (fix_both_next s0 s low HA HR) as (s' & HR' & EF). destruct (HG g (or_introl eq_refl)) as [PG ED]. destruct (rotated_ok low s0 g PG) as (g' & ER & EG).
  destruct (variable_ok m mdfms s0 low dims t g g' PG ED HC ER ID LP HPos NV) as (r & Er & AR).
  destruct (IH s' HR') as (rs & s2 & gs2 & E & TT & F); [intros g2 H2; apply HG; right; auto|].
  exists (r :: rs), s2, (g' :: gs2). split; [|split; [auto|constructor; auto]]. cbn [collocate_all]. unfold collocate_one. rewrite EF, ER. cbn [bind]. rewrite Er. cbn [bind]. rewrite E. reflexivity.
Qed.
Theorem sampled_ok how m mdfms s v0 vs : way how m -> aligned s -> complete s -> unique_standard_names (u_coords s) -> u_values s <> [] -> (forall g, In g (v0 :: vs) -> placeable s g /\ g_dims g = g_dims v0) ->
  exists rs s' gs', sampled_from how mdfms s (v0 :: vs) = Ok (rs, s', gs') /\ same_but_turns s s' /\ Forall2 (fun g r => answers m mdfms s g r) (v0 :: vs) rs.
Proof.
  intros HW HA HC HU NV HG.
  assert (E : sampled_from how mdfms s (v0 :: vs) = reported (bind (post_process s) (fun s => collocate_all m mdfms None s (v0 :: vs)))).
  { unfold sampled_from. destruct HW as [[[-> | ->] ->]|[-> ->]]; reflexivity. }
  rewrite E, (aligned_complete s HA HC). cbn [bind]. destruct (fix_both_first s HA HC HU NV) as (s1 & low & HR & EF). destruct (HG v0 (or_introl eq_refl)) as [PG _]. destruct (rotated_ok low s v0 PG) as (g' & ER & EG).
  assert (EN : map (fun g => (gd_std g, gd_other g)) (g_dims g') = map (fun g => (gd_std g, gd_other g)) (g_dims v0)) by (rewrite EG; destruct low; [apply turned_names|reflexivity]).
  pose proof PG as (_ & NB & _). destruct (interpolator_ok s s1 low (g_dims v0) g' HA HC HU HR NB EN) as (t & ET & ID & LP & HPos). rewrite EG in ID.
  assert (CV : match low with Some l => convention s l | None => forall c, In c (u_coords s) -> ~ lon_coord c end).
  { destruct HR as (_ & HT & H). destruct low; [apply H|]. intros c Hc Hl. destruct (turns_in _ _ _ HT Hc) as (c' & Hc' & I & _). apply (H c' Hc'). unfold lon_coord in *. unfold identity_of in I. congruence. }
  destruct (variable_ok m mdfms s low (g_dims v0) t v0 g' PG eq_refl CV ER ID LP HPos NV) as (r & Er & AR).
  destruct (rest_ok m mdfms s low (g_dims v0) t HA NV ID LP HPos CV vs s1 HR) as (rs & s2 & gs2 & E2 & TT & F); [intros g Hg; apply HG; right; auto|].
  exists (r :: rs), s2, (g' :: gs2). split; [|split; [auto|constructor; auto]]. cbn [collocate_all]. unfold collocate_one. rewrite EF, ER. cbn [bind]. rewrite ET. cbn [bind]. rewrite Er. cbn [bind]. rewrite E2. reflexivity.
Qed.
