(** Proofs for C30-C33: whole calls. *)
From Verif Require Import Base PyStr QBase LonModel LonSpec LonProofs DateModel FileListModel FileListProofs IndexModel IndexProofs UngrModel UngrSpec UngrProofs SubsetModel SubsetSpec SubsetProofs.
From Coq Require Import Qminmax Lqa.
Open Scope string_scope. Open Scope list_scope. Open Scope nat_scope.

Lemma in_identity cs cs' x : map identity_of cs' = map identity_of cs -> In x cs' -> exists y, In y cs /\ identity_of y = identity_of x.
Proof. intros H HI. assert (E : In (identity_of x) (map identity_of cs)) by (rewrite <- H; apply in_map; auto). apply in_map_iff in E. destruct E as (y & E & Hy). eauto. Qed.
Lemma identity_parts a b : identity_of a = identity_of b -> c_std a = c_std b /\ c_name a = c_name b /\ c_var a = c_var b.
Proof. destruct a, b. unfold identity_of, c_name. cbn. intros E. injection E as -> -> -> ->. auto. Qed.
Lemma addresses_identity cs cs' n k : map identity_of cs' = map identity_of cs -> addresses cs n k -> addresses cs' n k.
Proof.
  intros H HA. assert (HX : (forall x, In x cs -> c_name x <> n /\ c_std x <> Some n) -> forall x, In x cs' -> c_name x <> n /\ c_std x <> Some n).
  { intros F x Hx. destruct (in_identity cs cs' x H Hx) as (y & Hy & E). apply identity_parts in E. destruct E as (E1 & E2 & _). rewrite <- E1, <- E2. auto. }
  destruct HA as [c Hk E|c s Hk HN HS E|c Hk HN HS E HU]; destruct (nth_identity cs cs' k c H Hk) as (c' & Hk' & I); apply identity_parts in I; destruct I as (I1 & I2 & I3).
  - apply (addr_name cs' n k c'); congruence.
  - apply (addr_axis cs' n k c' s); auto; congruence.
  - apply (addr_var cs' n k c'); auto; [congruence|]. intros j x Hj Hx. destruct (nth_identity cs' cs j x (eq_sym H) Hj) as (y & Hy & I). apply identity_parts in I. apply (HU j y); auto. intuition congruence.
Qed.
(** ** Minimum and maximum *)
Lemma fold_min l : forall m, (forall x, x = m \/ In x l -> fold_left Qmin l m <= x)%Q /\ exists x, (x = m \/ In x l) /\ (fold_left Qmin l m == x)%Q.
Proof.
  induction l as [|y l IH]; intros m; cbn [fold_left].
  - split; [intros x [->|[]]; apply Qle_refl|]. exists m. split; auto. reflexivity.
  - destruct (IH (Qmin m y)) as [L (z & Hz & E)]. split.
    + intros x [->|[->|HI]]; [|  |apply L; auto]; (eapply Qle_trans; [apply L; left; reflexivity|]); [apply Q.le_min_l|apply Q.le_min_r].
    + destruct Hz as [->|HI]; [|exists z; split; auto; right; right; auto]. destruct (Q.min_spec m y) as [[_ X]|[_ X]]; [exists m|exists y]; split; auto; try (right; left; auto); rewrite E; auto.
Qed.
Lemma qmin_spec l m : qmin_of l = Ok m -> (forall x, In x l -> m <= x)%Q /\ exists x, In x l /\ (m == x)%Q.
Proof. destruct l as [|y l]; [discriminate|]. intros H. injection H as <-. destruct (fold_min l y) as [L (z & Hz & E)]. split; [intros x [<-|HI]; apply L; auto|]. exists z. split; auto. destruct Hz; [left|right]; auto. Qed.
Lemma fold_max l : forall m, (forall x, x = m \/ In x l -> x <= fold_left Qmax l m)%Q /\ exists x, (x = m \/ In x l) /\ (fold_left Qmax l m == x)%Q.
Proof.
  induction l as [|y l IH]; intros m; cbn [fold_left].
  - split; [intros x [->|[]]; apply Qle_refl|]. exists m. split; auto. reflexivity.
  - destruct (IH (Qmax m y)) as [L (z & Hz & E)]. split.
    + intros x [->|[->|HI]]; [|  |apply L; auto]; (eapply Qle_trans; [|apply L; left; reflexivity]); [apply Q.le_max_l|apply Q.le_max_r].
    + destruct Hz as [->|HI]; [|exists z; split; auto; right; right; auto]. destruct (Q.max_spec m y) as [[_ X]|[_ X]]; [exists y|exists m]; split; auto; try (right; left; auto); rewrite E; auto.
Qed.
Lemma qmax_spec l m : qmax_of l = Ok m -> (forall x, In x l -> x <= m)%Q /\ exists x, In x l /\ (m == x)%Q.
Proof. destruct l as [|y l]; [discriminate|]. intros H. injection H as <-. destruct (fold_max l y) as [L (z & Hz & E)]. split; [intros x [<-|HI]; apply L; auto|]. exists z. split; auto. destruct Hz; [left|right]; auto. Qed.
Lemma in_somes {A} (l : list (option A)) x : In x (somes l) <-> In (Some x) l.
Proof.
  induction l as [|[y|] l IH]; cbn [somes In]; [tauto| |]; rewrite IH; split.
  - intros [->|H]; auto. - intros [H|H]; auto. left. congruence. - auto. - intros [H|H]; auto. discriminate.
Qed.
(** ** From keywords to entries *)
Lemma resolve_one c a b : (somes (c_points c) <> [] \/ (a <> None /\ b <> None)) -> exists a' b', default_to a (qmin_of (somes (c_points c))) = Ok a' /\ default_to b (qmax_of (somes (c_points c))) = Ok b' /\
  (forall x, In (Some x) (c_points c) -> within (a, b) x = in_limits (a', b') (Some x)) /\ (a <> None -> a = Some a') /\ (b <> None -> b = Some b').
Proof.
  intros H. assert (HA : exists a', default_to a (qmin_of (somes (c_points c))) = Ok a' /\ (forall x, In (Some x) (c_points c) -> match a with Some a => Qleb a x | None => true end = Qleb a' x) /\ (a <> None -> a = Some a')).
  { destruct a as [a|]; [exists a; repeat split; auto|]. destruct H as [H|[H _]]; [|congruence]. destruct (qmin_of_some _ H) as (m & E). exists m. split; [exact E|]. split; [|congruence]. intros x Hx. symmetry. apply Qleb_le. apply (qmin_spec _ _ E), in_somes, Hx. }
  assert (HB : exists b', default_to b (qmax_of (somes (c_points c))) = Ok b' /\ (forall x, In (Some x) (c_points c) -> match b with Some b => Qleb x b | None => true end = Qleb x b') /\ (b <> None -> b = Some b')).
  { destruct b as [b|]; [exists b; repeat split; auto|]. destruct H as [H|[_ H]]; [|congruence]. destruct (qmax_of_some _ H) as (m & E). exists m. split; [exact E|]. split; [|congruence]. intros x Hx. symmetry. apply Qleb_le. apply (qmax_spec _ _ E), in_somes, Hx. }
  destruct HA as (a' & Ea & Ha & Ha'). destruct HB as (b' & Eb & Hb & Hb'). exists a', b'. repeat split; auto. intros x Hx. unfold within, in_limits. cbn [fst snd]. rewrite Ha, Hb by auto. reflexivity.
Qed.
Definition entry_for (cs : list coord) (l : limit) (e : nat * (Q * Q)) : Prop :=
  fst e = fst l /\ (forall c x, nth_error cs (fst l) = Some c -> In (Some x) (c_points c) -> within (snd l) x = in_limits (snd e) (Some x)) /\
  (bounded l -> snd l = (Some (fst (snd e)), Some (snd (snd e)))).
Lemma address_position cs n k : addresses cs n k -> exists c, nth_error cs k = Some c.
Proof. intros [c H|c s H|c H]; eauto. Qed.
Lemma says_entries d d1 kws ls : aligned d1 -> complete d1 -> map identity_of (u_coords d1) = map identity_of (u_coords d) -> says d kws ls -> (rows d1 <> [] \/ Forall bounded ls) ->
  exists es, Forall2 (fun kw e => resolves (u_coords d1) kw None [e]) kws es /\ Forall2 (entry_for (u_coords d1)) ls es.
Proof.
  intros HA HC HI HS HB. induction HS as [|kw l kws ls (n & -> & HK) HS IH]; [exists []; split; constructor|]. destruct IH as (es & F1 & F2); [destruct HB as [HB|HB]; [auto|inversion HB; auto]|].
  apply (addresses_identity _ (u_coords d1)) in HK; auto. destruct (address_position _ _ _ HK) as (c & Hc). destruct l as [k [a b]]. cbn [fst snd] in *. destruct (resolve_one c a b) as (a' & b' & Ea & Eb & HW & Ha & Hb).
  { destruct HB as [HB|HB]; [left; eapply somes_nonempty; eauto|]. inversion HB as [|? ? HX _]; subst. right. exact HX. }
  exists ((k, (a', b')) :: es). split; constructor; auto. - econstructor; eauto.
  - split; [reflexivity|]. split; [cbn [fst snd]; intros c' x Hc' Hx; rewrite Hc in Hc'; injection Hc' as <-; auto|]. intros [B1 B2]. cbn [fst snd] in *. rewrite Ha, Hb by auto. reflexivity.
Qed.
Lemma fst_entries cs ls es : Forall2 (entry_for cs) ls es -> map fst es = map fst ls.
Proof. induction 1 as [|l e ls es [E _] _ IH]; [reflexivity|]. cbn. congruence. Qed.
Lemma entries_combine cs kws es : Forall2 (fun kw e => resolves cs kw None [e]) kws es ->
  Forall2 (fun kw ge => resolves cs kw (fst ge) (snd ge)) kws (combine (map (fun _ => None) es) (map (fun e => [e]) es)).
Proof. induction 1; cbn; constructor; auto. Qed.
Lemma concat_singles {A} (es : list A) : concat (map (fun e => [e]) es) = es.
Proof. induction es; cbn; congruence. Qed.
Lemma regions_none {A} (es : list A) : forall g, regions (map (fun _ => None) es) g = g.
Proof. induction es; cbn; auto. Qed.
Lemma nth_at_pos_other {A} k (g : A -> A) l d : forall j, j <> k -> nth j (at_pos k g l) d = nth j l d.
Proof. revert k. induction l as [|x l IH]; intros [|k] [|j] H; cbn; auto; try congruence. Qed.
Lemma nth_at_pos_same {A} k (g : A -> A) l d : k < length l -> nth k (at_pos k g l) d = g (nth k l d).
Proof. revert k. induction l as [|x l IH]; intros [|k] H; cbn in *; auto; try lia. apply IH. lia. Qed.
Lemma change_id k r : change k (fun x => x) r = r.
Proof. destruct r as [r v]. unfold change. cbn. rewrite at_pos_id; auto. intros [x|]; auto. Qed.
Lemma in_row d k c i : nth_error (u_coords d) k = Some c -> i < length (c_points c) -> In (nth k (fst (row_at d i)) None) (c_points c).
Proof. intros H L. rewrite (row_coord d k c i H). apply nth_In. auto. Qed.
(** the entries say what the limits say *)
Lemma qual_qualifies d ls es k f r : aligned d -> complete d -> Forall2 (entry_for (u_coords d)) ls es -> Forall (fun e : nat * (Q * Q) => fst e < length (u_coords d)) es ->
  (forall l, In l ls -> fst l = k -> bounded l \/ f = (fun x => x)) -> In r (rows d) -> qual es (change k f r) = qualifies ls (change k f r).
Proof.
  intros HA HC HE HF HK HR. unfold rows in HR. apply in_map_iff in HR. destruct HR as (i & <- & Hi). apply in_seq in Hi.
  induction HE as [|l e ls es HE1 HE IH]; [reflexivity|]. inversion HF as [|? ? HP HF']; subst. cbn [qual qualifies forallb]. f_equal; [|apply IH; auto; intros; apply HK; auto; right; auto].
  destruct HE1 as (E1 & E2 & E3). rewrite E1 in *. destruct (nth_error (u_coords d) (fst l)) as [c|] eqn:Hc; [|apply nth_error_None in Hc; lia].
  assert (Lc : length (c_points c) = length (u_values d)) by (unfold aligned in HA; rewrite Forall_forall in HA; apply HA; eapply nth_error_In; eauto).
  assert (B : bounded l -> in_limits (snd e) (nth (fst l) (fst (change k f (row_at d i))) None) = match nth (fst l) (fst (change k f (row_at d i))) None with Some x => within (snd l) x | None => false end).
  { intros B. destruct (nth (fst l) _ None) as [x|]; [|reflexivity]. rewrite (E3 B). reflexivity. }
  assert (U : nth (fst l) (fst (change k f (row_at d i))) None = nth (fst l) (fst (row_at d i)) None -> in_limits (snd e) (nth (fst l) (fst (change k f (row_at d i))) None) = match nth (fst l) (fst (change k f (row_at d i))) None with Some x => within (snd l) x | None => false end).
  { intros ->. pose proof (in_row d (fst l) c i Hc ltac:(lia)) as HI. destruct (nth (fst l) (fst (row_at d i)) None) as [x|]; [|reflexivity]. symmetry. apply (E2 c); auto. }
  destruct (Nat.eq_dec (fst l) k) as [E|NE].
  - destruct (HK l (or_introl eq_refl) E) as [HB|HB]; [auto|]. apply U. rewrite HB, change_id. reflexivity.
  - apply U. unfold change. cbn [fst]. apply nth_at_pos_other. auto.
Qed.
Lemma is_lon_spec d k c : nth_error (u_coords d) k = Some c -> (is_longitude c = true <-> is_lon d k).
Proof. intros H. rewrite is_longitude_spec. unfold is_lon. split; [eauto|]. intros (c' & Hc & E). congruence. Qed.
Lemma is_lon_identity d d1 k : map identity_of (u_coords d1) = map identity_of (u_coords d) -> (is_lon d1 k <-> is_lon d k).
Proof.
  intros H. split; intros (c & Hc & E); [destruct (nth_identity _ (u_coords d) k c (eq_sym H) Hc) as (c' & Hc' & I)|destruct (nth_identity _ (u_coords d1) k c H Hc) as (c' & Hc' & I)]; apply identity_parts in I; exists c'; split; auto; intuition congruence.
Qed.
Lemma proper_processed d : proper d -> exists d1, post_process d = Ok d1 /\ aligned d1 /\ complete d1 /\ rows d1 = located_rows d /\ map identity_of (u_coords d1) = map identity_of (u_coords d) /\ u_coords d1 <> [] /\ own_names (u_coords d1).
Proof.
  intros (HA & HN & HO). destruct (post_process_spec d HA) as (d1 & E & A & R & I). exists d1. split; auto. split; auto. split; [intros r Hr; rewrite R in Hr; apply filter_In in Hr; tauto|]. split; auto. split; auto.
  split; [|eapply own_names_identity; eauto]. intros Z. rewrite Z in I. destruct (u_coords d); [congruence|discriminate].
Qed.
Lemma post_again d d1 : aligned d -> post_process d = Ok d1 -> post_process d1 = Ok d1.
Proof. apply post_process_twice. Qed.
(** ** Limits only *)
Theorem subset_limits d kws ls : proper d -> says d kws ls -> NoDup (map fst ls) -> (forall l, In l ls -> is_lon d (fst l) -> bounded l) ->
  (located_rows d <> [] \/ (Forall bounded ls /\ forall l, In l ls -> ~ is_lon d (fst l))) ->
  exists d1 es k f r, post_process d = Ok d1 /\ map identity_of (u_coords d1) = map identity_of (u_coords d) /\ rows d1 = located_rows d /\ aligned d1 /\ complete d1 /\ own_names (u_coords d1) /\ Forall2 (entry_for (u_coords d1)) ls es /\
    converted (u_coords d1) es k f /\ subset d kws = Ok r /\ result_rows d (filter (qualifies ls) (map (change k f) (located_rows d))) r.
Proof.
  intros HP HS HN HL HB. destruct (proper_processed d HP) as (d1 & E1 & A1 & C1 & R1 & I1 & N1 & O1). destruct (says_entries d d1 kws ls A1 C1 I1 HS) as (es & F1 & F2); [rewrite R1; tauto|].
  pose proof (fst_entries _ _ _ F2) as FE. destruct (make_limits_spec (u_coords d1) kws O1 _ _ (entries_combine _ _ _ F1)) as [EM FM]; [rewrite !map_length; auto|rewrite concat_singles, FE; auto|]. rewrite concat_singles in *. rewrite regions_none in EM.
  assert (NL : (forall l, In l ls -> ~ is_lon d (fst l)) -> forall e c, In e es -> nth_error (u_coords d1) (fst e) = Some c -> is_longitude c = false).
  { intros H e c He Hc. destruct (is_longitude c) eqn:X; auto. exfalso. apply (is_lon_spec d1 _ _ Hc) in X. apply (is_lon_identity d) in X; auto. assert (HI : In (fst e) (map fst ls)) by (rewrite <- FE; apply in_map; auto). apply in_map_iff in HI. destruct HI as (l & El & Hl). apply (H l Hl). congruence. }
  destruct (constrain_limits d1 es A1 C1 N1 O1 FM) as (k & f & r & k' & HV & EC & RR); [rewrite FE; auto|rewrite R1; destruct HB as [HB|[_ HB]]; [auto|right; intros; eapply NL; eauto]|].
  exists d1, es, k, f, r. repeat (split; [assumption|]). split.
  - unfold subset. rewrite E1. cbn [bind]. rewrite EM. cbn [bind fst snd]. rewrite EC. reflexivity.
  - assert (Q : filter (qual es) (map (change k f) (rows d1)) = filter (qualifies ls) (map (change k f) (located_rows d))).
    { rewrite <- R1. apply filter_ext_in. intros x Hx. apply in_map_iff in Hx. destruct Hx as (x0 & <- & Hx0). apply (qual_qualifies d1); auto. intros l Hl El. destruct HV as [[_ ->]|(l' & c & s & HI & Hc & HLc & _ & _)]; [auto|left]. apply HL; auto. apply (is_lon_identity d d1); auto. apply (is_lon_spec d1 _ c); auto. congruence. }
    rewrite <- Q. unfold result_rows in *. destruct r as [d'|]; auto. rewrite <- I1. exact RR.
Qed.
Theorem subset_plain d kws ls : proper d -> says d kws ls -> NoDup (map fst ls) -> (forall l, In l ls -> ~ is_lon d (fst l)) -> (located_rows d <> [] \/ Forall bounded ls) ->
  exists r, subset d kws = Ok r /\ result_rows d (filter (qualifies ls) (located_rows d)) r.
Proof.
  intros HP HS HN HL HB. destruct (subset_limits d kws ls HP HS HN) as (d1 & es & k & f & r & E1 & I1 & R1 & A1 & C1 & O1 & F2 & HV & ES & RR); [intros l Hl X; exfalso; apply (HL l); auto|tauto|]. exists r. split; auto.
  assert (f = (fun x => x)) as ->.
  { destruct HV as [[_ ->]|(l' & c & s & HI & Hc & HLc & _ & _)]; auto. exfalso. assert (X : In k (map fst ls)) by (rewrite <- (fst_entries _ _ _ F2); apply in_map_iff; exists (k, l'); auto). apply in_map_iff in X. destruct X as (l & El & Hl). apply (HL l Hl).
    apply (is_lon_identity d d1); auto. apply (is_lon_spec d1 _ c); congruence. }
  replace (map (change k (fun x => x)) (located_rows d)) with (located_rows d) in RR; auto. symmetry. erewrite map_ext; [apply map_id|]. intros x. apply change_id.
Qed.
Theorem subset_meridian d kws ls : proper d -> says d kws ls -> NoDup (map fst ls) -> (forall l, In l ls -> is_lon d (fst l) -> bounded l) -> located_rows d <> [] ->
  exists k f r, subset d kws = Ok r /\ (forall x, same_meridian x (f x)) /\ (is_lon d k \/ forall x, f x = x) /\ result_rows d (filter (qualifies ls) (map (change k f) (located_rows d))) r.
Proof.
  intros HP HS HN HL HB. destruct (subset_limits d kws ls HP HS HN HL) as (d1 & es & k & f & r & E1 & I1 & R1 & A1 & C1 & O1 & F2 & HV & ES & RR); [tauto|]. exists k, f, r. split; auto. split; [|split; auto].
  - destruct HV as [[_ ->]|(l' & c & s & _ & _ & _ & _ & ->)]; [intros; apply same_meridian_refl|]. destruct s; cbn; intros; [apply wrap_lon_same|apply same_meridian_refl].
  - destruct HV as [[_ ->]|(l' & c & s & _ & Hc & HLc & _ & _)]; [auto|left]. apply (is_lon_identity d d1); auto. apply (is_lon_spec d1 _ c); auto.
Qed.
