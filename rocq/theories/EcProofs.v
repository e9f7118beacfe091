(** Proofs for C84. *)
From Coq Require Import String.
From Verif Require Import Base PyStr QBase DateModel DateProofs DistModel AeroModel AeroSpec AeroProofs IndexSpec IndexProofs InterpModel UngrModel UngrSpec UngrProofs ModisProofs GG4Proofs KmProofs EcModel EcSpec.
From Coq Require Import List Lia Arith Ascii.
Import ListNotations.
Open Scope string_scope. Open Scope list_scope. Open Scope nat_scope. Notation length := List.length.

Lemma evar_of_has f n v : NoDup (map fst f) -> has f n v -> evar_of f n = Some v.
Proof.
  unfold has, evar_of. induction f as [|[a w] f IH]; cbn [map fst find]; intros N H; [destruct H|]. inversion N; subst. destruct (str_eqb a n) eqn:E.
  - apply str_eqb_eq in E. subst a. destruct H as [H|H]; [injection H as ->; reflexivity|]. exfalso. apply H2. apply (in_map fst) in H. exact H.
  - destruct H as [H|H]; [injection H as -> ->; rewrite str_eqb_refl in E; discriminate|]. auto.
Qed.
Lemma has_evar_of f n v : evar_of f n = Some v -> has f n v.
Proof. unfold has, evar_of. destruct (find _ f) as [[a w]|] eqn:E; cbn; [|discriminate]. intros [= ->]. apply find_some in E. destruct E as (I & E). apply str_eqb_eq in E. cbn in E. subst. exact I. Qed.
Lemma all_have_iff files n : all_have files n = true <-> everywhere files n.
Proof.
  unfold all_have, everywhere. rewrite forallb_forall, Forall_forall. split; intros H f I; specialize (H f I).
  - destruct (evar_of f n) eqn:E; [|discriminate]. exists e. apply has_evar_of. exact E.
  - destruct H as (v & H). unfold has, evar_of in *. destruct (find _ f) eqn:E; [reflexivity|]. exfalso. apply (find_none _ _ E) in H. cbn in H. rewrite str_eqb_refl in H. discriminate.
Qed.
Lemma all_have_not files n : all_have files n = false <-> ~ everywhere files n.
Proof. rewrite <- all_have_iff. destruct (all_have files n); split; intros; try discriminate; try reflexivity. - exfalso. auto. Qed.
Lemma first_ok (f : efile) (rest : list efile) n v : NoDup (map fst f) -> everywhere (f :: rest) n -> has f n v -> first_of (f :: rest) n = Ok v.
Proof. intros N E H. unfold first_of. rewrite (proj2 (all_have_iff _ _) E), (evar_of_has f n v) by auto. reflexivity. Qed.

(** ** names *)
Lemma known_markers k : In k known_dims -> exists d p mk, In (d, p, mk) extra_dims /\ k = (lit d, lit mk, p).
Proof. intros H. repeat (destruct H as [<-|H]; [do 3 eexists; split; [|reflexivity]; cbn; tauto|]). destruct H. Qed.
Lemma markers_known d p mk : In (d, p, mk) extra_dims -> In (lit d, lit mk, p) known_dims.
Proof. intros H. repeat (destruct H as [[= <- <- <-]|H]; [cbn; tauto|]). destruct H. Qed.
Lemma mentions_marked s mk : mentions (lit mk) s <-> marked s mk.
Proof. unfold mentions, marked. split; intros (a & b & ->); exists a, b; reflexivity. Qed.
Lemma digit_char k : k < 10 -> is_digit (ascii_of_nat (48 + k)) = true /\ Z.to_nat (digits_val [ascii_of_nat (48 + k)]) = k.
Proof. intros H. do 10 (destruct k as [|k]; [split; reflexivity|]). lia. Qed.
Lemma asked_ok s n k : asked_as s n k -> exists o, asked s = Ok (n, o) /\ (match o with Some k => k | None => 0 end) = k.
Proof.
  intros [(-> & -> & H)|(d & p & mk & I & K & -> & H)]; unfold asked.
  - exists None. destruct (find _ known_dims) as [kd|] eqn:E; [|split; reflexivity]. exfalso. apply find_some in E. destruct E as (I & E). destruct (known_markers kd I) as (d & p & mk & J & ->). apply contains_iff, mentions_marked in E. exact (H _ _ _ J E).
  - exists (Some k). split; [|reflexivity]. set (s := n ++ lit mk ++ [ascii_of_nat (48 + k)]) in *. destruct (find _ known_dims) as [kd|] eqn:E.
    + apply find_some in E. destruct E as (J & E). destruct (known_markers kd J) as (d' & p' & mk' & J' & ->). apply contains_iff, mentions_marked in E. apply (H _ _ _ J') in E. subst mk'.
      assert (R : rev s = ascii_of_nat (48 + k) :: rev (n ++ lit mk)) by (unfold s; rewrite app_assoc, rev_app_distr; reflexivity). rewrite R. destruct (digit_char k K) as (D1 & D2). rewrite D1, D2. repeat f_equal.
      unfold d_marker. cbn [fst snd]. unfold s. rewrite !app_length. cbn [length]. replace (length n + (length (lit mk) + 1) - (length (lit mk) + 1)) with (length n) by lia. rewrite firstn_app, Nat.sub_diag, firstn_all, firstn_O, app_nil_r. reflexivity.
    + exfalso. pose proof (find_none _ _ E _ (markers_known _ _ _ I)) as X. cbn in X. apply contains_false in X. apply X. exists n, [ascii_of_nat (48 + k)]. reflexivity.
Qed.

(** ** shapes *)
Lemma extra_inj n n' p p' mk mk' : In (n, p, mk) extra_dims -> In (n', p', mk') extra_dims -> lit n = lit n' -> (n, p, mk) = (n', p', mk').
Proof.
  intros H H' E. apply lit_inj in E. subst n'. cbn [extra_dims In] in H, H'.
  repeat match goal with X : _ \/ _ |- _ => destruct X as [X|X] | X : False |- _ => destruct X | X : (_, _, _) = (_, _, _) |- _ => apply pair_equal_spec in X; destruct X as (X & <-); apply pair_equal_spec in X; destruct X as (X & <-) end; subst n; try discriminate; reflexivity.
Qed.
Lemma in_place_known v k : In k known_dims -> in_place v k = true -> exists n p mk, In (n, p, mk) extra_dims /\ k = (lit n, lit mk, p) /\ nth_error (e_dims v) p = Some (lit n).
Proof.
  intros I H. destruct (known_markers k I) as (n & p & mk & J & ->). exists n, p, mk. split; [exact J|]. split; [reflexivity|]. unfold in_place, d_place, d_name in H. cbn [fst snd] in H.
  destruct (nth_error (e_dims v) p) as [d|]; [|discriminate]. apply str_eqb_eq in H. congruence.
Qed.
Lemma none_in_place v k : no_extra v -> In k known_dims -> in_place v k = false.
Proof.
  intros N I. destruct (in_place v k) eqn:E; [|reflexivity]. exfalso. destruct (in_place_known v k I E) as (n & p & mk & J & -> & X). apply nth_error_In in X. unfold no_extra in N. rewrite Forall_forall in N. apply (N _ X). exists n, p, mk. auto.
Qed.
Lemma one_in_place v n p mk d1 d2 : In (n, p, mk) extra_dims -> e_dims v = d1 ++ lit n :: d2 -> length d1 = p -> Forall (fun d => ~ is_extra d) (d1 ++ d2) ->
  in_place v (lit n, lit mk, p) = true /\ forall k, In k known_dims -> k <> (lit n, lit mk, p) -> in_place v k = false.
Proof.
  intros I D L F. split.
  - unfold in_place, d_place, d_name. cbn [fst snd]. rewrite D, nth_error_app2, L, Nat.sub_diag by lia. cbn [nth_error]. apply str_eqb_refl.
  - intros k K NE. destruct (in_place v k) eqn:E; [|reflexivity]. exfalso. destruct (in_place_known v k K E) as (n' & p' & mk' & J & -> & X). apply nth_error_In in X. rewrite D in X.
    rewrite Forall_forall in F. apply in_app_or in X. destruct X as [X|[X|X]].
    + apply (F (lit n')); [apply in_or_app; auto|exists n', p', mk'; auto].
    + pose proof (extra_inj _ _ _ _ _ _ I J X) as Q1. apply NE. congruence.
    + apply (F (lit n')); [apply in_or_app; auto|exists n', p', mk'; auto].
Qed.
Lemma fold_none v l (s : list nat) : (forall k, In k l -> in_place v k = false) ->
  fold_left (fun acc k => bind acc (fun s => if in_place v k then if d_place k <? length s then Ok (remove_at (d_place k) s) else Raises IndexError else Ok s)) l (Ok s) = Ok s.
Proof. induction l as [|k l IH]; intros H; [reflexivity|]. cbn [fold_left bind]. rewrite H by (left; reflexivity). apply IH. intros k' I. apply H. right. exact I. Qed.
Lemma known_nodup : NoDup known_dims.
Proof. unfold known_dims. repeat (constructor; [cbn [In]; intros H; repeat (destruct H as [H|H]; [discriminate|]); exact H|]). constructor. Qed.
Lemma required_none v : no_extra v -> required_shape v = Ok (e_shape v) /\ found_known v = false /\ find (fun d => existsb (str_eqb (d_name d)) (e_dims v)) known_dims = None.
Proof.
  intros N. split; [apply fold_none; intros k I; apply none_in_place; auto|]. split.
  - unfold found_known. destruct (existsb (in_place v) known_dims) eqn:E; [|reflexivity]. apply existsb_exists in E. destruct E as (k & I & E). rewrite none_in_place in E by auto. discriminate.
  - destruct (find _ known_dims) as [k|] eqn:E; [|reflexivity]. exfalso. apply find_some in E. destruct E as (I & E). apply existsb_exists in E. destruct E as (d & J & E). destruct (known_markers k I) as (n & p & mk & K & ->). apply str_eqb_eq in E. unfold d_name in E. cbn [fst] in E. subst d.
    unfold no_extra in N. rewrite Forall_forall in N. apply (N _ J). exists n, p, mk. auto.
Qed.
Lemma remove_mid {A} (a : list A) x b : remove_at (length a) (a ++ x :: b) = a ++ b.
Proof. unfold remove_at. rewrite firstn_app, firstn_all, Nat.sub_diag, firstn_O, app_nil_r. f_equal. rewrite skipn_app, skipn_all2 by lia. replace (S (length a) - length a) with 1 by lia. reflexivity. Qed.
Lemma required_one v n p mk d1 d2 s1 e s2 : In (n, p, mk) extra_dims -> e_dims v = d1 ++ lit n :: d2 -> length d1 = p -> Forall (fun d => ~ is_extra d) (d1 ++ d2) -> e_shape v = s1 ++ e :: s2 -> length s1 = p ->
  required_shape v = Ok (s1 ++ s2) /\ found_known v = true /\ find (fun d => existsb (str_eqb (d_name d)) (e_dims v)) known_dims = Some (lit n, lit mk, p).
Proof.
  intros I D L F SH LS. destruct (one_in_place v n p mk d1 d2 I D L F) as (T & O). set (k := (lit n, lit mk, p)) in *. assert (K : In k known_dims) by (apply markers_known; exact I). split; [|split].
  - unfold required_shape. destruct (in_split _ _ K) as (l1 & l2 & E). pose proof known_nodup as ND. rewrite E in *. apply NoDup_remove_2 in ND. rewrite fold_left_app. rewrite fold_none.
    + cbn [fold_left bind]. rewrite T. unfold d_place. cbn [snd k]. rewrite SH, <- LS, app_length. cbn [length]. destruct (Nat.ltb_spec (length s1) (length s1 + S (length s2))); [|lia]. rewrite remove_mid. apply fold_none.
      intros k' I'. apply O; [apply in_or_app; right; right; exact I'|]. intros ->. apply ND. apply in_or_app. auto.
    + intros k' I'. apply O; [apply in_or_app; auto|]. intros ->. apply ND. apply in_or_app. auto.
  - unfold found_known. apply existsb_exists. exists k. auto.
  - destruct (find _ known_dims) as [k'|] eqn:E.
    + apply find_some in E. destruct E as (I' & E). apply existsb_exists in E. destruct E as (d & J & E). destruct (known_markers k' I') as (n' & p' & mk' & K' & ->). apply str_eqb_eq in E. unfold d_name in E. cbn [fst] in E. subst d.
      rewrite D in J. rewrite Forall_forall in F. apply in_app_or in J. destruct J as [J|[J|J]]; [exfalso; apply (F (lit n')); [apply in_or_app; auto|exists n', p', mk'; auto]| |exfalso; apply (F (lit n')); [apply in_or_app; auto|exists n', p', mk'; auto]].
      pose proof (extra_inj _ _ _ _ _ _ I K' J) as Q1. unfold k. congruence.
    + exfalso. pose proof (find_none _ _ E _ K) as X. apply Bool.not_true_iff_false in X. apply X. apply existsb_exists. exists (lit n). split; [rewrite D; apply in_elt|apply str_eqb_refl].
Qed.
Lemma not_no_extra v n p mk d1 d2 : In (n, p, mk) extra_dims -> e_dims v = d1 ++ lit n :: d2 -> ~ no_extra v.
Proof. intros I D N. unfold no_extra in N. rewrite D in N. apply Forall_app in N. destruct N as (_ & N). inversion N; subst. apply H1. exists n, p, mk. auto. Qed.

(** ** arrays *)
Lemma flat_inj dims a b : valid_index dims a -> valid_index dims b -> flat_pos dims a = flat_pos dims b -> a = b.
Proof. intros A B E. apply nth_iterator in A, B. rewrite E in A. congruence. Qed.
Lemma product_at dims idx : valid_index dims idx -> nth_error (product (map (seq 0) dims)) (flat_pos dims idx) = Some idx.
Proof.
  intros V. destruct (nth_error (product (map (seq 0) dims)) (flat_pos dims idx)) as [i|] eqn:E.
  - destruct (nth_product _ _ _ E) as (V' & F). f_equal. apply (flat_inj dims); auto.
  - exfalso. apply nth_error_None in E. rewrite <- (map_length (flat_pos dims)), product_flat, seq_length in E. pose proof (flat_pos_bound _ _ V). lia.
Qed.
Lemma element_nth v idx : whole v -> valid_index (e_shape v) idx -> element v idx (nth (flat_pos (e_shape v) idx) (e_data v) None).
Proof. intros (W & _) V. split; [exact V|]. apply nth_error_nth'. rewrite W. apply flat_pos_bound. exact V. Qed.
Lemma insert_mid {A} p (x : A) l : p <= length l -> exists a b, l = a ++ b /\ length a = p /\ insert_at p x l = a ++ x :: b.
Proof. intros H. exists (firstn p l), (skipn p l). rewrite firstn_skipn, firstn_length. repeat split. lia. Qed.
Lemma valid_insert s1 s2 i1 i2 e k : length i1 = length s1 -> valid_index (s1 ++ s2) (i1 ++ i2) -> k < e -> valid_index (s1 ++ e :: s2) (i1 ++ k :: i2).
Proof.
  intros L V K. unfold valid_index in *. revert i1 L V. induction s1 as [|n s1 IH]; intros [|i i1] L V; cbn in L; try discriminate; cbn [app] in *; [constructor; auto|]. inversion V; subst. constructor; auto.
Qed.
Lemma expand1_length l m : length (expand1 l m) = length l * m.
Proof. unfold expand1. induction l as [|x l IH]; [reflexivity|]. cbn [flat_map length]. rewrite app_length, repeat_length, IH. lia. Qed.
Lemma expand1_nth l m i j : j < m -> nth (i * m + j) (expand1 l m) None = nth i l None.
Proof.
  intros J. revert i. unfold expand1. induction l as [|x l IH]; intros i; [cbn [flat_map]; destruct (i * m + j), i; reflexivity|]. cbn [flat_map]. destruct i as [|i].
  - cbn [Nat.mul Nat.add nth]. rewrite app_nth1 by (rewrite repeat_length; auto). clear IH. revert j J. induction m as [|m IH]; intros j J; [lia|]. destruct j; [reflexivity|]. cbn [repeat nth]. apply IH. lia.
  - rewrite app_nth2 by (rewrite repeat_length; lia). rewrite repeat_length. replace (S i * m + j - m) with (i * m + j) by lia. apply IH.
Qed.
Lemma expand0_length l n : length (expand0 l n) = n * length l.
Proof. unfold expand0. induction n as [|n IH]; [reflexivity|]. cbn [repeat concat]. rewrite app_length, IH. lia. Qed.
Lemma expand0_nth l n i j : i < n -> j < length l -> nth (i * length l + j) (expand0 l n) None = nth j l None.
Proof.
  intros H J. unfold expand0. revert i H. induction n as [|n IH]; intros i H; [lia|]. cbn [repeat concat]. destruct i as [|i]; [cbn [Nat.mul Nat.add]; apply app_nth1; auto|].
  rewrite app_nth2 by lia. replace (S i * length l + j - length l) with (i * length l + j) by lia. apply IH. lia.
Qed.
Lemma shape_eqb_eq a b : shape_eqb a b = true <-> a = b.
Proof. revert b. induction a as [|x a IH]; intros [|y b]; cbn [shape_eqb]; try (split; intros; congruence). rewrite Bool.andb_true_iff, Nat.eqb_eq, IH. split; [intros (-> & ->); reflexivity|intros [= -> ->]; auto]. Qed.
Lemma since_2000_eq x : (since_2000 x == 146097 + x / 86400)%Q.
Proof.
  unfold since_2000, convert_sec_since_to_std_time. change (inject_Z (offset_days (mkDT 2000 1 1 0 0 0))) with 146097%Q. reflexivity.
Qed.

(** ** a column of a coordinate *)
Definition coord_column (c : evar) (dims : list nat) : list (option Q) := if length (e_shape c) <? length dims then expand1 (e_data c) (nth 1 dims 0) else e_data c.
Lemma column_length c dims : whole c -> fits c dims -> length (coord_column c dims) = cells dims.
Proof.
  intros (W & _) F. unfold coord_column. destruct F as [F|(n & m & -> & F)]; rewrite F.
  - rewrite Nat.ltb_irrefl, W, F. reflexivity.
  - cbn [length]. change (1 <? 2) with true. cbn [nth]. rewrite expand1_length, W, F. cbn. lia.
Qed.
Lemma column_at c dims idx : whole c -> fits c dims -> valid_index dims idx -> at_pixel c dims idx (nth (flat_pos dims idx) (coord_column c dims) None).
Proof.
  intros W F V. unfold coord_column. destruct F as [F|(n & m & -> & F)].
  - rewrite F, Nat.ltb_irrefl. left. split; [exact F|]. rewrite <- F in *. apply element_nth; auto.
  - rewrite F. cbn [length]. change (1 <? 2) with true. cbn [nth]. right. inversion V as [|i ? r ? Hi V1 E1 E2]; subst. inversion V1 as [|j ? r' ? Hj V2 E1 E2]; subst. inversion V2; subst.
    exists n, m, i, j. do 3 (split; [auto|]). cbn [flat_pos cells]. replace (i * (m * 1) + (j * 1 + 0)) with (i * m + j) by lia. rewrite expand1_nth by auto.
    assert (V' : valid_index (e_shape c) [i]) by (rewrite F; constructor; auto; constructor). pose proof (element_nth c [i] W V') as X. rewrite F in X. cbn [flat_pos cells] in X. replace (i * 1 + 0) with i in X by lia. exact X.
Qed.
Lemma second_of n m : second [n; m] = Ok m. Proof. reflexivity. Qed.
Lemma place_ok std axis c dims : whole c -> fits c dims -> exists sh, place_coord std axis c dims = Ok [mkCoord (Some (lit std)) [] [] (lit axis) sh (coord_column c dims)].
Proof.
  intros W F. unfold place_coord, coord_column. destruct F as [F|(n & m & -> & F)]; rewrite F.
  - rewrite !Nat.ltb_irrefl. eexists. reflexivity.
  - cbn [length]. change (1 <? 2) with true. change (2 <? 1) with false. cbn [nth second bind]. eexists. reflexivity.
Qed.
Lemma time_ok c dims : whole c -> fits c dims -> exists sh, time_coord c dims = Ok [mkCoord (Some (lit "time")) [] [] (lit "T") sh (map (option_map since_2000) (coord_column c dims))].
Proof.
  intros W F. unfold time_coord, coord_column. destruct F as [F|(n & m & -> & F)]; rewrite F.
  - rewrite !Nat.ltb_irrefl. rewrite (proj2 (shape_eqb_eq dims dims) eq_refl). eexists. reflexivity.
  - cbn [length]. change (1 <? 2) with true. cbn [nth second bind]. eexists. reflexivity.
Qed.
Lemma height_name_in files n : height_name files = Some n -> exists s, n = lit s /\ height_in files s.
Proof.
  unfold height_name, height_in. destruct (all_have files (lit "ScienceData/height")) eqn:A; [intros H; exists "ScienceData/height"%string; split; [congruence|]; left; split; [apply all_have_iff; exact A|reflexivity]|].
  destruct (all_have files (lit "ScienceData/sample_altitude")) eqn:B; [|discriminate]. intros H. exists "ScienceData/sample_altitude"%string. split; [congruence|]. right. split; [apply all_have_not; exact A|]. split; [apply all_have_iff; exact B|reflexivity].
Qed.
Lemma height_name_none files n : height_name files = None -> ~ height_in files n.
Proof.
  unfold height_name, height_in. destruct (all_have files (lit "ScienceData/height")) eqn:A; [discriminate|]. destruct (all_have files (lit "ScienceData/sample_altitude")) eqn:B; [discriminate|]. intros _.
  apply all_have_not in A, B. intros [(X & _)|(_ & X & _)]; auto.
Qed.
Lemma height_everywhere files n : height_in files n -> everywhere files (lit n). Proof. intros [(X & ->)|(_ & X & ->)]; exact X. Qed.
(** the vertical coordinate, if any *)
Lemma height_ok (f : efile) (rest : list efile) lon v dims : good_file f -> fits lon dims -> (length dims = 1 \/ length dims = 2) -> found_known v = false /\ no_extra v \/ found_known v = true /\ ~ no_extra v ->
  exists cs, height_coord (f :: rest) lon v dims = Ok cs /\ (cs = [] \/ exists sh l, cs = [mkCoord (Some (lit "altitude")) [] (lit "altitude") (lit "Z") sh l]) /\ Forall (fun c => length (c_points c) = cells dims) cs /\
    forall idx, valid_index dims idx -> vertical (f :: rest) f lon v dims idx (map (fun c => nth (flat_pos dims idx) (c_points c) None) cs).
Proof.
  intros (ND & WH) F R K. unfold height_coord. destruct (height_name (f :: rest)) as [n|] eqn:E.
  - apply height_name_in in E. destruct E as (s & -> & E). pose proof (height_everywhere _ _ E) as EV. pose proof EV as EV'. inversion EV' as [|? ? (h & H) _]; subst. rewrite (first_ok f rest _ h) by auto. cbn [bind].
    destruct (shape_eqb (e_shape h) dims) eqn:Q1.
    + apply shape_eqb_eq in Q1. eexists. split; [reflexivity|]. split; [right; eauto|]. split; [constructor; [|constructor]; cbn [c_points]; rewrite (proj1 (WH _ _ H)), Q1; reflexivity|].
      intros idx V. left. exists s, h. split; [exact E|]. split; [exact H|]. left. split; [exact Q1|]. eexists. split; [|reflexivity]. cbn [c_points]. rewrite <- Q1 in *. apply element_nth; eauto.
    + eexists. split; [reflexivity|]. split; [left; reflexivity|]. split; [constructor|]. intros idx V. left. exists s, h. split; [exact E|]. split; [exact H|]. right. split; [|reflexivity]. intros X. apply shape_eqb_eq in X. congruence.
  - assert (NH : forall n, ~ height_in (f :: rest) n) by (intros n; apply height_name_none; exact E). destruct ((length (e_shape lon) + 1 =? length dims) && negb (found_known v))%bool eqn:B.
    + apply Bool.andb_true_iff in B. destruct B as (B1 & B2). apply Nat.eqb_eq in B1. destruct F as [F|(n & m & -> & F)]; [rewrite F in B1; lia|]. cbn [second bind hd]. eexists. split; [reflexivity|]. split; [right; eauto|].
      assert (LL : length (map (fun j => Some (inject_Z (Z.of_nat j))) (seq 0 m)) = m) by (rewrite map_length, seq_length; reflexivity). split.
      * constructor; [|constructor]. cbn [c_points]. rewrite expand0_length, LL. cbn. lia.
      * intros idx V. inversion V as [|i ? r ? Hi V1 E1 E2]; subst. inversion V1 as [|j ? r' ? Hj V2 E1 E2]; subst. inversion V2; subst. right. split; [exact NH|]. left. split; [rewrite F; discriminate|]. split.
        { destruct K as [(_ & K)|(K & _)]; [exact K|]. rewrite K in B2. discriminate. }
        exists i, j. split; [reflexivity|]. cbn [map c_points flat_pos cells]. f_equal. replace (i * (m * 1) + (j * 1 + 0)) with (i * length (map (fun j => Some (inject_Z (Z.of_nat j))) (seq 0 m)) + j) by (rewrite LL; lia).
        rewrite expand0_nth by (rewrite ?LL; auto). apply (nth_map_d (fun j => Some (inject_Z (Z.of_nat j))) (seq 0 m) None j j). rewrite nth_error_nth' with (d := 0) by (rewrite seq_length; auto). rewrite seq_nth by auto. reflexivity.
    + eexists. split; [reflexivity|]. split; [left; reflexivity|]. split; [constructor|]. intros idx V. right. split; [exact NH|]. right. split; [|reflexivity]. apply Bool.andb_false_iff in B. destruct B as [B|B].
      * left. destruct F as [F|(n & m & -> & F)]; [exact F|]. rewrite F in B. discriminate.
      * right. destruct K as [(K & _)|(_ & K)]; [rewrite K in B; discriminate|exact K].
Qed.

Lemma positions_ok files lo la : position_in files lo la -> position_names files = Some (lit lo, lit la) /\ everywhere files (lit lo) /\ everywhere files (lit la) /\ everywhere files (lit "ScienceData/time").
Proof.
  unfold position_in, position_names. cbn [forallb]. rewrite !Forall_cons_iff. rewrite <- !all_have_iff. intros [((A & B & C & _) & -> & ->)|(N & (A & B & C & _) & -> & ->)].
  - rewrite A, B, C. cbn [andb]. auto.
  - rewrite A, B, C. cbn [andb]. split; [|auto]. destruct (all_have files (lit "ScienceData/longitude")) eqn:X; cbn [andb]; [|reflexivity]. destruct (all_have files (lit "ScienceData/latitude")) eqn:Y; cbn [andb]; [|reflexivity].
    exfalso. apply N. auto.
Qed.
(** ** the values *)
Lemma take_ok v k s1 e s2 : whole v -> e_shape v = s1 ++ e :: s2 -> k < e -> exists l, take v (length s1) k = Ok (s1 ++ s2, l) /\ length l = cells (s1 ++ s2) /\
  forall idx, valid_index (s1 ++ s2) idx -> exists i1 i2, idx = i1 ++ i2 /\ length i1 = length s1 /\ element v (i1 ++ k :: i2) (nth (flat_pos (s1 ++ s2) idx) l None).
Proof.
  intros W E K. unfold take. rewrite E, nth_error_app2, Nat.sub_diag by lia. cbn [nth_error]. destruct (Nat.ltb_spec k e); [|lia]. rewrite remove_mid. eexists. split; [reflexivity|]. split.
  - rewrite map_length, <- (map_length (flat_pos (s1 ++ s2))), product_flat, seq_length. reflexivity.
  - intros idx V. pose proof (Forall2_length _ _ _ V) as L. rewrite app_length in L. destruct (insert_mid (length s1) k idx) as (i1 & i2 & -> & L1 & I); [lia|]. exists i1, i2. split; [reflexivity|]. split; [exact L1|].
    rewrite (nth_map_d _ _ _ _ (i1 ++ i2)) by (apply product_at; exact V). rewrite I. rewrite <- E. apply element_nth; [exact W|]. rewrite E. apply valid_insert; auto.
Qed.
Lemma pixels_ok files v k dims n o : whole v -> pixels v k dims -> (length dims = 1 \/ length dims = 2) -> (match o with Some k => k | None => 0 end) = k -> first_of files n = Ok v ->
  required_shape v = Ok dims /\ (found_known v = false /\ no_extra v \/ found_known v = true /\ ~ no_extra v) /\
  exists sh l, (forall cs s, asked s = Ok (n, o) -> coord_list files n = Ok cs -> create_data_object files s = Ok (Some (mkU cs sh l))) /\ length l = cells dims /\ forall idx, valid_index dims idx -> pixel v k idx (nth (flat_pos dims idx) l None).
Proof.
  intros W P R O FO. destruct P as [(N & ->)|(x & p & mk & d1 & d2 & s1 & s2 & e & I & D & L & F & SH & LS & K & ->)].
  - destruct (required_none v N) as (A & B & C). split; [exact A|]. split; [left; auto|]. exists (e_shape v), (e_data v). split; [|split; [apply W|]].
    + intros cs s AS CL. unfold create_data_object. rewrite AS. cbn [bind]. rewrite CL. cbn [bind]. rewrite FO, C, (proj2 W). destruct (Nat.ltb_spec 3 (length (e_shape v))); [lia|]. destruct (Nat.eqb_spec (length (e_shape v)) 3); [lia|]. reflexivity.
    + intros idx V. left. split; [exact N|]. apply element_nth; auto.
  - destruct (required_one v x p mk d1 d2 s1 e s2 I D L F SH LS) as (A & B & C). split; [exact A|]. split; [right; split; [exact B|eapply not_no_extra; eauto]|]. destruct (take_ok v k s1 e s2 W SH K) as (l & T & TL & TE). exists (s1 ++ s2), l. split; [|split; [exact TL|]].
    + intros cs s AS CL. unfold create_data_object. rewrite AS. cbn [bind]. rewrite CL. cbn [bind]. rewrite FO, C, (proj2 W), SH. rewrite app_length in *. cbn [length] in *. destruct (Nat.ltb_spec 3 (length s1 + S (length s2))); [lia|]. destruct (Nat.ltb_spec (length s1 + S (length s2)) 2); [lia|].
      unfold d_place. cbn [snd]. rewrite O, <- LS, T. reflexivity.
    + intros idx V. right. destruct (TE idx V) as (i1 & i2 & -> & L1 & E). exists x, p, mk, i1, i2. split; [exact I|]. split; [rewrite D; apply in_elt|]. split; [reflexivity|]. split; [congruence|exact E].
Qed.
Theorem reads_pixels (f : efile) (rest : list efile) s n k lo la v lon lat time dims :
  good_file f -> asked_as s n k -> position_in (f :: rest) lo la -> everywhere (f :: rest) n ->
  has f n v -> has f (lit lo) lon -> has f (lit la) lat -> has f (lit "ScienceData/time") time -> pixels v k dims -> length dims = 1 \/ length dims = 2 -> fits lon dims -> fits lat dims -> fits time dims ->
  exists d raw, read_ec (f :: rest) s = Ok (Some d) /\ (exists z, (z = [] \/ z = [Some (lit "altitude")]) /\ map c_std (u_coords d) = [Some (lit "longitude"); Some (lit "latitude"); Some (lit "time")] ++ z) /\
    length raw = cells dims /\
    (forall idx, valid_index dims idx -> exists x y t0 t z o, nth_error raw (flat_pos dims idx) = Some (x :: y :: t :: z, o) /\
       at_pixel lon dims idx x /\ at_pixel lat dims idx y /\ at_pixel time dims idx t0 /\ of_2000 t0 t /\ vertical (f :: rest) f lon v dims idx z /\ pixel v k idx o) /\
    rows d = filter located raw.
Proof.
  intros G A P EV Hv Hlo Hla Ht PX RK F1 F2 F3. pose proof G as (ND & WH). destruct (positions_ok _ _ _ P) as (PN & E1 & E2 & E3). destruct (asked_ok _ _ _ A) as (o & AS & O).
  pose proof (first_ok f rest n v ND EV Hv) as FV. destruct (pixels_ok (f :: rest) v k dims n o (WH _ _ Hv) PX RK O FV) as (RS & KN & sh & l & CR & LL & LE).
  destruct (place_ok "longitude" "X" lon dims (WH _ _ Hlo) F1) as (sh1 & X1). destruct (place_ok "latitude" "Y" lat dims (WH _ _ Hla) F2) as (sh2 & X2). destruct (time_ok time dims (WH _ _ Ht) F3) as (sh3 & X3).
  destruct (height_ok f rest lon v dims G F1 RK KN) as (zs & X4 & ZS & ZL & ZE).
  assert (CL : coord_list (f :: rest) n = Ok ([mkCoord (Some (lit "longitude")) [] [] (lit "X") sh1 (coord_column lon dims)] ++ [mkCoord (Some (lit "latitude")) [] [] (lit "Y") sh2 (coord_column lat dims)] ++ [mkCoord (Some (lit "time")) [] [] (lit "T") sh3 (map (option_map since_2000) (coord_column time dims))] ++ zs)).
  { unfold coord_list. rewrite PN, FV. cbn [bind]. rewrite RS. cbn [bind]. rewrite (first_ok f rest _ lon), (first_ok f rest _ lat), (first_ok f rest _ time) by auto. cbn [bind]. rewrite X1. cbn [bind]. rewrite X2. cbn [bind]. rewrite X3. cbn [bind]. rewrite X4. cbn [bind]. reflexivity. }
  pose proof (CR _ _ AS CL) as CD. set (u := mkU _ sh l) in CD.
  assert (AL : aligned u). { unfold aligned, u. cbn [u_coords u_values app]. rewrite LL. repeat (apply Forall_cons; [cbn [c_points]; rewrite ?map_length; apply column_length; eauto|]). exact ZL. }
  destruct (post_process_spec u AL) as (d & PP & _ & RW & ID). exists d, (rows u). split; [unfold read_ec; rewrite CD; cbn [bind]; rewrite PP; reflexivity|]. split; [|split; [|split; [|exact RW]]].
  - exists (map c_std zs). split; [destruct ZS as [->|(sz & lz & ->)]; [left|right]; reflexivity|]. assert (MS : forall cs, map c_std cs = map (fun t => fst (fst (fst t))) (map identity_of cs)) by (intros cs; rewrite map_map; reflexivity). rewrite MS, ID, <- MS. reflexivity.
  - rewrite rows_length. unfold u. cbn [u_values]. exact LL.
  - intros idx V. set (x := flat_pos dims idx). assert (B : x < length (u_values u)) by (unfold u, x; cbn [u_values]; rewrite LL; apply flat_pos_bound; exact V).
    exists (nth x (coord_column lon dims) None), (nth x (coord_column lat dims) None), (nth x (coord_column time dims) None), (nth x (map (option_map since_2000) (coord_column time dims)) None), (map (fun c => nth x (c_points c) None) zs), (nth x l None).
    split; [|split; [|split; [|split; [|split; [|split]]]]]; try (apply column_at; eauto).
    + unfold rows. rewrite nth_error_map. rewrite nth_error_nth' with (d := 0) by (rewrite seq_length; exact B). rewrite seq_nth by exact B. reflexivity.
    + assert (TL : x < length (coord_column time dims)) by (rewrite column_length by eauto; unfold x; apply flat_pos_bound; exact V). rewrite (nth_map_d _ _ _ _ (nth x (coord_column time dims) None)) by (apply nth_error_nth'; exact TL).
      destruct (nth x (coord_column time dims) None); cbn [option_map of_2000]; [apply since_2000_eq|exact Logic.I].
    + apply ZE. exact V.
    + apply LE. exact V.
Qed.

(** ** only the first file counts *)
Lemma bind_ext {A B} (m : res A) (g h : A -> res B) : (forall x, g x = h x) -> bind m g = bind m h.
Proof. intros H. destruct m; [apply H|reflexivity]. Qed.
Theorem first_file_only (f : efile) (rest : list efile) s : (forall n, everywhere [f] n -> everywhere (f :: rest) n) -> read_ec (f :: rest) s = read_ec [f] s.
Proof.
  intros H. assert (AH : forall n, all_have (f :: rest) n = all_have [f] n).
  { intros n. destruct (all_have [f] n) eqn:E; [apply all_have_iff, H, all_have_iff, E|]. apply all_have_not. apply all_have_not in E. intros X. apply E. inversion X; subst. constructor; [assumption|constructor]. }
  assert (FO : forall n, first_of (f :: rest) n = first_of [f] n) by (intros n; unfold first_of; rewrite AH; reflexivity).
  unfold read_ec. f_equal. unfold create_data_object. apply bind_ext. intros (n & o). rewrite FO. f_equal. unfold coord_list.
  assert (PN : position_names (f :: rest) = position_names [f]) by (unfold position_names; cbn [forallb]; rewrite !AH; reflexivity). rewrite PN. destruct (position_names [f]) as [(lo & la)|]; [|reflexivity].
  rewrite !FO. apply bind_ext. intros v. apply bind_ext. intros req. apply bind_ext. intros lon. apply bind_ext. intros x. apply bind_ext. intros lat. apply bind_ext. intros y. apply bind_ext. intros time. apply bind_ext. intros t. f_equal.
  unfold height_coord. assert (HN : height_name (f :: rest) = height_name [f]) by (unfold height_name; rewrite !AH; reflexivity). rewrite HN. destruct (height_name [f]); [rewrite FO; reflexivity|reflexivity].
Qed.
(** ** missing variables *)
Lemma no_positions files : (forall lo la, ~ position_in files lo la) -> position_names files = None.
Proof.
  intros H. unfold position_names. cbn [forallb]. destruct (all_have files (lit "ScienceData/longitude") && (all_have files (lit "ScienceData/latitude") && (all_have files (lit "ScienceData/time") && true)))%bool eqn:E.
  - exfalso. rewrite !Bool.andb_true_iff, !all_have_iff in E. apply (H "ScienceData/longitude" "ScienceData/latitude")%string. left. split; [|auto]. repeat constructor; tauto.
  - destruct (all_have files (lit "ScienceData/ellipsoid_longitude") && (all_have files (lit "ScienceData/ellipsoid_latitude") && (all_have files (lit "ScienceData/time") && true)))%bool eqn:E'; [|reflexivity].
    exfalso. rewrite !Bool.andb_true_iff, !all_have_iff in E'. apply (H "ScienceData/ellipsoid_longitude" "ScienceData/ellipsoid_latitude")%string. right. split; [|split; [repeat constructor; tauto|auto]].
    intros X. rewrite !Forall_cons_iff in X. rewrite <- !all_have_iff in X. destruct X as (X1 & X2 & X3 & _). rewrite X1, X2, X3 in E. discriminate.
Qed.
Lemma first_missing files n : ~ everywhere files n -> first_of files n = Raises InvalidVariableError.
Proof. intros H. unfold first_of. apply all_have_not in H. rewrite H. reflexivity. Qed.
Theorem missing_variable files s n k : asked_as s n k -> ~ everywhere files n ->
  ((exists lo la, position_in files lo la) -> read_ec files s = Raises InvalidVariableError) /\ ((forall lo la, ~ position_in files lo la) -> read_ec files s = Ok None).
Proof.
  intros A M. destruct (asked_ok _ _ _ A) as (o & AS & _). split.
  - intros (lo & la & P). destruct (positions_ok _ _ _ P) as (PN & _). unfold read_ec, create_data_object. rewrite AS. cbn [bind]. unfold coord_list. rewrite PN, (first_missing _ _ M). reflexivity.
  - intros P. apply no_positions in P. unfold read_ec, create_data_object. rewrite AS. cbn [bind]. unfold coord_list. rewrite P. cbn [bind]. rewrite (first_missing _ _ M). reflexivity.
Qed.
(** ** an index of two digits *)
Lemma marker_start d p mk : In (d, p, mk) extra_dims -> exists r, lit mk = "_"%char :: r.
Proof. intros H. cbn [extra_dims In] in H. repeat (destruct H as [H|H]; [apply pair_equal_spec in H; destruct H as (_ & <-); eexists; reflexivity|]). destruct H. Qed.
Lemma is_digit_char b : (exists k, k < 10 /\ b = ascii_of_nat (48 + k)) -> is_digit b = true.
Proof. intros (k & H & ->). apply digit_char. exact H. Qed.
Theorem two_digits files n a b d p mk lo la : In (d, p, mk) extra_dims -> (exists k, k < 10 /\ b = ascii_of_nat (48 + k)) -> (forall d' p' mk', In (d', p', mk') extra_dims -> marked (n ++ lit mk ++ [a; b]) mk' -> mk' = mk) ->
  position_in files lo la -> ~ everywhere files (n ++ lit "_") -> read_ec files (n ++ lit mk ++ [a; b]) = Raises InvalidVariableError.
Proof.
  intros I DB O P M. destruct (positions_ok _ _ _ P) as (PN & _). set (s := n ++ lit mk ++ [a; b]) in *.
  assert (AS : exists o, asked s = Ok (n ++ lit "_", Some o)).
  { unfold asked. destruct (find _ known_dims) as [kd|] eqn:E.
    - apply find_some in E. destruct E as (J & E). destruct (known_markers kd J) as (d' & p' & mk' & J' & ->). apply contains_iff, mentions_marked in E. apply (O _ _ _ J') in E. subst mk'.
      assert (X : rev s = b :: a :: rev (n ++ lit mk)) by (unfold s; rewrite app_assoc, rev_app_distr; reflexivity). rewrite X, (is_digit_char b DB). eexists. f_equal. f_equal. unfold d_marker. cbn [fst snd]. destruct (marker_start _ _ _ I) as (r & MS). unfold s. rewrite MS.
      rewrite !app_length. cbn [length]. replace (length n + (S (length r) + 2) - (S (length r) + 1)) with (length n + 1) by lia. rewrite firstn_app, firstn_all2 by lia. replace (length n + 1 - length n) with 1 by lia. reflexivity.
    - exfalso. pose proof (find_none _ _ E _ (markers_known _ _ _ I)) as X. cbn in X. apply contains_false in X. apply X. exists n, [a; b]. reflexivity. }
  destruct AS as (o & AS). unfold read_ec, create_data_object. rewrite AS. cbn [bind]. unfold coord_list. rewrite PN, (first_missing _ _ M). reflexivity.
Qed.
(** ** a variable without positions *)
Theorem across_track (f : efile) (rest : list efile) n lo la v lon lat time w :
  good_file f -> asked_as n n 0 -> position_in (f :: rest) lo la -> everywhere (f :: rest) n -> has f n v -> has f (lit lo) lon -> has f (lit la) lat -> has f (lit "ScienceData/time") time ->
  no_extra v -> e_shape v = [w] -> 1 < length (e_shape lon) -> 1 < length (e_shape lat) -> 1 <= length (e_shape time) -> e_shape time <> [w] -> (forall x h, height_in (f :: rest) x -> has f (lit x) h -> e_shape h <> [w]) ->
  exists d, read_ec (f :: rest) n = Ok (Some d) /\ map c_name (u_coords d) = [lit "index_x"] /\ rows d = map (fun j => ([Some (inject_Z (Z.of_nat j))], nth j (e_data v) None)) (seq 0 w).
Proof.
  intros G A P EV Hv Hlo Hla Ht N SH L1 L2 L3 T H. pose proof G as (ND & WH). destruct (positions_ok _ _ _ P) as (PN & E1 & E2 & E3). destruct (asked_ok _ _ _ A) as (o & AS & O). pose proof (first_ok f rest n v ND EV Hv) as FV.
  destruct (required_none v N) as (RS & FK & FI). rewrite SH in RS.
  assert (HC : height_coord (f :: rest) lon v [w] = Ok []).
  { unfold height_coord. destruct (height_name (f :: rest)) as [hn|] eqn:E.
    - apply height_name_in in E. destruct E as (x & -> & E). pose proof (height_everywhere _ _ E) as EH. pose proof EH as EH'. inversion EH' as [|? ? (h & Hh) _]; subst. rewrite (first_ok f rest _ h) by auto. cbn [bind].
      destruct (shape_eqb (e_shape h) [w]) eqn:Q1; [|reflexivity]. apply shape_eqb_eq in Q1. exfalso. exact (H x h E Hh Q1).
    - cbn [length]. destruct (Nat.eqb_spec (length (e_shape lon) + 1) 1); [lia|reflexivity]. }
  assert (CL : coord_list (f :: rest) n = Ok [mkCoord None (lit "index_x") (lit "index_x") (lit "X") [w] (map (fun j => Some (inject_Z (Z.of_nat j))) (seq 0 w))]).
  { unfold coord_list. rewrite PN, FV. cbn [bind]. rewrite RS. cbn [bind]. rewrite (first_ok f rest _ lon), (first_ok f rest _ lat), (first_ok f rest _ time) by auto. cbn [bind]. unfold place_coord. cbn [length].
    destruct (Nat.ltb_spec 1 (length (e_shape lon))); [|lia]. destruct (Nat.ltb_spec 1 (length (e_shape lat))); [|lia]. cbn [bind]. unfold time_coord. cbn [length]. destruct (Nat.ltb_spec (length (e_shape time)) 1); [lia|].
    destruct (shape_eqb (e_shape time) [w]) eqn:Q1; [apply shape_eqb_eq in Q1; contradiction|]. cbn [bind]. rewrite HC. reflexivity. }
  assert (CD : create_data_object (f :: rest) n = Ok (Some (mkU [mkCoord None (lit "index_x") (lit "index_x") (lit "X") [w] (map (fun j => Some (inject_Z (Z.of_nat j))) (seq 0 w))] [w] (e_data v)))).
  { unfold create_data_object. rewrite AS. cbn [bind]. rewrite CL. cbn [bind]. rewrite FV, FI, (proj2 (WH _ _ Hv)), SH. reflexivity. }
  set (u := mkU _ [w] (e_data v)) in CD. assert (LV : length (e_data v) = w) by (rewrite (proj1 (WH _ _ Hv)), SH; cbn; lia).
  assert (RU : rows u = map (fun j => ([Some (inject_Z (Z.of_nat j))], nth j (e_data v) None)) (seq 0 w)).
  { unfold rows, u. cbn [u_values]. rewrite LV. apply map_ext_in. intros j J. apply in_seq in J. unfold row_at. cbn [u_coords u_values map c_points]. f_equal. f_equal. apply (nth_map_d (fun j => Some (inject_Z (Z.of_nat j))) (seq 0 w) None j j). rewrite nth_error_nth' with (d := 0) by (rewrite seq_length; lia). rewrite seq_nth by lia. reflexivity. }
  exists u. assert (PP : post_process u = Ok u).
  { apply aligned_complete; [unfold aligned, u; cbn [u_coords u_values]; constructor; [cbn [c_points]; rewrite map_length, seq_length; auto|constructor]|]. intros r R. rewrite RU in R. apply in_map_iff in R. destruct R as (j & <- & _). reflexivity. }
  split; [unfold read_ec; rewrite CD; cbn [bind]; rewrite PP; reflexivity|]. split; [reflexivity|exact RU].
Qed.
(** ** an extra dimension at another place *)
Theorem band_last (f : efile) (rest : list efile) n lo la v lon lat time a b e d1 d2 :
  good_file f -> asked_as n n 0 -> position_in (f :: rest) lo la -> everywhere (f :: rest) n -> has f n v -> has f (lit lo) lon -> has f (lit la) lat -> has f (lit "ScienceData/time") time ->
  e_dims v = [d1; d2; lit "band"] -> ~ is_extra d1 -> ~ is_extra d2 -> e_shape v = [a; b; e] -> e_shape lon = [a; b] -> e_shape lat = [a; b] -> e_shape time = [a; b] \/ e_shape time = [a] -> 0 < a -> 0 < b -> e <> a * b ->
  read_ec (f :: rest) n = Raises ValueError.
Proof.
  intros G A P EV Hv Hlo Hla Ht D X1 X2 SH S1 S2 S3 PA PB NE. pose proof G as (ND & WH). destruct (positions_ok _ _ _ P) as (PN & E1 & E2 & E3). destruct (asked_ok _ _ _ A) as (o & AS & O). pose proof (first_ok f rest n v ND EV Hv) as FV.
  assert (IP : forall k, In k known_dims -> in_place v k = false).
  { intros k I. destruct (in_place v k) eqn:E; [|reflexivity]. exfalso. destruct (in_place_known v k I E) as (n' & p' & mk' & J & -> & X). rewrite D in X. destruct p' as [|[|[|p']]]; cbn [nth_error] in X.
    - apply X1. exists n', 0, mk'. split; [exact J|congruence].
    - apply X2. exists n', 1, mk'. split; [exact J|congruence].
    - assert (Y : lit "band" = lit n') by congruence. assert (I' : In ("band"%string, 0, "_BANDNUM_"%string) extra_dims) by (cbn; tauto). pose proof (extra_inj _ _ _ _ _ _ I' J Y). discriminate.
    - destruct p'; discriminate. }
  assert (RS : required_shape v = Ok [a; b; e]) by (rewrite <- SH; apply fold_none; exact IP).
  assert (FI : find (fun d => existsb (str_eqb (d_name d)) (e_dims v)) known_dims = Some (lit "band", lit "_BANDNUM_", 0)).
  { destruct (find _ known_dims) as [k|] eqn:E.
    - apply find_some in E. destruct E as (I & E). apply existsb_exists in E. destruct E as (d & J & E). destruct (known_markers k I) as (n' & p' & mk' & K' & ->). apply str_eqb_eq in E. unfold d_name in E. cbn [fst] in E. subst d. rewrite D in J. destruct J as [J|[J|[J|[]]]].
      + exfalso. apply X1. exists n', p', mk'. auto.
      + exfalso. apply X2. exists n', p', mk'. auto.
      + assert (I' : In ("band"%string, 0, "_BANDNUM_"%string) extra_dims) by (cbn; tauto). pose proof (extra_inj _ _ _ _ _ _ I' K' J). congruence.
    - exfalso. assert (I' : In (lit "band", lit "_BANDNUM_", 0) known_dims) by (apply markers_known; cbn; tauto). pose proof (find_none _ _ E _ I') as X. apply Bool.not_true_iff_false in X. apply X. apply existsb_exists. exists (lit "band"). split; [rewrite D; right; right; left; reflexivity|apply str_eqb_refl]. }
  assert (HC : exists zs, height_coord (f :: rest) lon v [a; b; e] = Ok zs).
  { unfold height_coord. destruct (height_name (f :: rest)) as [hn|] eqn:E.
    - apply height_name_in in E. destruct E as (x & -> & E). pose proof (height_everywhere _ _ E) as EH. pose proof EH as EH'. inversion EH' as [|? ? (h & Hh) _]; subst. rewrite (first_ok f rest _ h) by auto. cbn [bind]. destruct (shape_eqb (e_shape h) [a; b; e]); eexists; reflexivity.
    - destruct (_ && _)%bool; cbn [second bind]; eexists; reflexivity. }
  destruct HC as (zs & HC).
  assert (TC : exists ts, time_coord time [a; b; e] = Ok ts). { unfold time_coord. destruct S3 as [-> | ->]; cbn [length Nat.ltb Nat.leb second bind]; eexists; reflexivity. }
  destruct TC as (ts & TC).
  assert (CL : exists c cs, coord_list (f :: rest) n = Ok (c :: cs) /\ length (c_points c) = a * b * b).
  { exists (mkCoord (Some (lit "longitude")) [] [] (lit "X") [length (e_data lon); b] (expand1 (e_data lon) b)). exists ([mkCoord (Some (lit "latitude")) [] [] (lit "Y") [length (e_data lat); b] (expand1 (e_data lat) b)] ++ ts ++ zs). split.
    - unfold coord_list. rewrite PN, FV. cbn [bind]. rewrite RS. cbn [bind]. rewrite (first_ok f rest _ lon), (first_ok f rest _ lat), (first_ok f rest _ time) by auto. cbn [bind]. unfold place_coord. rewrite S1, S2. cbn [length Nat.ltb Nat.leb second bind]. rewrite TC. cbn [bind]. rewrite HC. reflexivity.
    - cbn [c_points]. rewrite expand1_length, (proj1 (WH _ _ Hlo)), S1. cbn [cells]. lia. }
  destruct CL as (c & cs & CL & LC). destruct (take_ok v 0 [] a [b; e] (WH _ _ Hv) SH PA) as (l & TK & TL & _).
  assert (CD : create_data_object (f :: rest) n = Ok (Some (mkU (c :: cs) [b; e] l))).
  { unfold create_data_object. rewrite AS. cbn [bind]. rewrite CL. cbn [bind]. rewrite FV, FI, D. cbn [length Nat.ltb Nat.leb d_place snd]. cbn [length app] in TK. rewrite O, TK. reflexivity. }
  unfold read_ec. rewrite CD. cbn [bind]. unfold post_process, missing_mask. cbn [u_values u_coords fold_left bind]. rewrite LC, TL. cbn [app cells].
  destruct (Nat.eqb_spec (a * b * b) (b * (e * 1))) as [Q1|Q1]; [exfalso; apply NE; nia|]. rewrite mask_len. reflexivity.
Qed.

(** ** an index that is not there *)
Theorem index_beyond (f : efile) (rest : list efile) s n k v m p mk d1 d2 s1 e s2 :
  good_file f -> asked_as s n k -> everywhere (f :: rest) n -> has f n v ->
  In (m, p, mk) extra_dims -> e_dims v = d1 ++ lit m :: d2 -> length d1 = p -> Forall (fun d => ~ is_extra d) (d1 ++ d2) -> e_shape v = s1 ++ e :: s2 -> length s1 = p -> e <= k ->
  exists x, read_ec (f :: rest) s = Raises x.
Proof.
  intros (ND & WH) A EV Hv I D L1 NE SH L2 K. destruct (asked_ok _ _ _ A) as (o & AS & O). pose proof (first_ok f rest n v ND EV Hv) as FV.
  unfold read_ec, create_data_object. rewrite AS. cbn [bind]. destruct (coord_list (f :: rest) n) as [cs|x]; [|exists x; reflexivity]. cbn [bind]. rewrite FV.
  destruct (required_one v m p mk d1 d2 s1 e s2 I D L1 NE SH L2) as (_ & _ & F). destruct (3 <? length (e_dims v)); [eexists; reflexivity|]. rewrite F. destruct (length (e_dims v) <? 2); [eexists; reflexivity|].
  unfold take, d_place. cbn [snd]. rewrite SH, nth_error_app2 by lia. rewrite <- L2, Nat.sub_diag. cbn [nth_error]. rewrite O. destruct (Nat.ltb_spec k e); [lia|]. eexists. reflexivity.
Qed.
