(** Proofs for C71: the coordinates and the rows. *)
From Coq Require Import String.
From Verif Require Import Base PyStr QBase DateModel DateProofs FileListModel AeroModel UngrModel UngrSpec UngrProofs GU3Proofs GU5Proofs GG3Proofs RafModel RafSpec RafProofs.
From Coq Require Import List Lia.
Import ListNotations.
Open Scope string_scope. Open Scope list_scope. Open Scope nat_scope. Notation length := List.length.

Lemma F2_intro {A B} (R : A -> B -> Prop) l : forall m, length l = length m -> (forall i x y, nth_error l i = Some x -> nth_error m i = Some y -> R x y) -> Forall2 R l m.
Proof. induction l as [|x l IH]; intros [|y m] L H; try discriminate; constructor; [apply (H 0); auto|apply IH; [injection L; auto|intros i; apply (H (S i))]]. Qed.
Lemma F2_imp {A B} (R S : A -> B -> Prop) l m : (forall x y, R x y -> S x y) -> Forall2 R l m -> Forall2 S l m.
Proof. intros H. induction 1; constructor; auto. Qed.
Lemma concat2_data a b c : concat2 a b = Ok c -> snd c = snd a ++ snd b.
Proof. unfold concat2. destruct (fst a), (fst b); try discriminate. destruct (list_eq_dec _ _ _); [|discriminate]. intros [= <-]. reflexivity. Qed.
Lemma concat_fold l : forall acc a, fold_left (fun acc b => bind acc (fun a => concat2 a b)) l acc = Ok a -> exists a0, acc = Ok a0 /\ snd a = snd a0 ++ concat (map snd l).
Proof.
  induction l as [|b l IH]; intros acc a E; cbn [fold_left] in E; [exists a; cbn; rewrite app_nil_r; auto|]. apply IH in E. destruct E as (a1 & E1 & S1). destruct acc as [a0|]; [|discriminate]. cbn [bind] in E1. apply concat2_data in E1.
  exists a0. split; auto. cbn [map concat]. rewrite S1, E1, app_assoc. reflexivity.
Qed.
Lemma concat_arrays_data l a : concat_arrays l = Ok a -> snd a = concat (map snd l).
Proof. destruct l as [|b l]; [discriminate|]. cbn [concat_arrays]. intros E. apply concat_fold in E. destruct E as (a0 & [= <-] & E). exact E. Qed.
Lemma column_ok files n vs : column files n = Ok vs <-> Forall2 (fun f v => variable f n = Some v) files vs.
Proof.
  unfold column. rewrite map_res_ok. split; apply F2_imp; intros f v; rewrite var_of_eq; [destruct (variable f n); congruence|intros ->; reflexivity].
Qed.
Lemma size_eq l : size l = fold_right Nat.mul 1 l.
Proof. unfold size. assert (G : forall a, fold_left Nat.mul l a = a * fold_right Nat.mul 1 l). { induction l as [|x l IH]; intros a; cbn; [lia|rewrite IH; lia]. } rewrite G. lia. Qed.

Lemma chunked (P : ncfile -> nat -> option Q -> Prop) t files chunks :
  Forall2 (fun f ch => length ch = count_of f t /\ forall j o, nth_error ch j = Some o -> P f j o) files chunks -> Forall2 (fun fj o => P (fst fj) (snd fj) o) (all_points_of files t) (concat chunks).
Proof.
  induction 1 as [|f ch files chunks (L & H) F IH]; [constructor|]. unfold all_points_of. cbn [flat_map concat]. apply Forall2_app; [|exact IH].
  apply F2_intro; [rewrite map_length, seq_length; auto|]. intros i x y Ex Ey. rewrite nth_error_map in Ex. destruct (nth_error (seq 0 (count_of f t)) i) as [k|] eqn:K; [|discriminate]. injection Ex as <-. cbn [fst snd].
  assert (i < count_of f t) by (rewrite <- L; apply nth_error_Some; congruence). rewrite (nth_error_nth' _ 0) in K by (rewrite seq_length; auto). injection K as <-. rewrite seq_nth by auto. apply H. exact Ey.
Qed.
(** ** Rows from columns *)
Definition columns_are {X} (pts : list X) (cs : list coord) (Ps : list (X -> option Q -> Prop)) : Prop := Forall2 (fun c (P : X -> option Q -> Prop) => Forall2 P pts (c_points c)) cs Ps.
Lemma columns_aligned {X} (pts : list X) cs Ps (V : X -> option Q -> Prop) shape vals : columns_are pts cs Ps -> Forall2 V pts vals -> aligned (mkU cs shape vals).
Proof.
  intros H HV. unfold aligned. cbn. apply forall2_len in HV. apply Forall_forall. intros c Hc. apply In_nth_error in Hc. destruct Hc as (i & Hi). destruct (F2_nth_l _ _ _ H _ _ Hi) as (P & _ & HP). apply forall2_len in HP. congruence.
Qed.
Lemma columns_rows {X} (pts : list X) cs Ps (V : X -> option Q -> Prop) shape vals : columns_are pts cs Ps -> Forall2 V pts vals ->
  Forall2 (fun x r => Forall2 (fun (P : X -> option Q -> Prop) o => P x o) Ps (fst r) /\ V x (snd r)) pts (rows (mkU cs shape vals)).
Proof.
  intros H HV. pose proof (forall2_len _ _ _ HV) as L. apply F2_intro; [unfold rows; cbn; rewrite map_length, seq_length; auto|]. intros i x r Ex Er.
  assert (Hi : i < length vals) by (rewrite <- L; apply nth_error_Some; congruence). unfold rows in Er. cbn [u_values] in Er. rewrite nth_error_map, (nth_error_nth' _ 0) in Er by (rewrite seq_length; auto). rewrite seq_nth in Er by auto. injection Er as <-.
  unfold row_at. cbn [fst snd u_coords u_values]. split.
  - clear - H Ex Hi L. induction H as [|c P cs Ps HP F IH]; constructor; auto. destruct (F2_nth_l _ _ _ HP _ _ Ex) as (o & Eo & R). cbn [plus]. rewrite (nth_error_nth _ _ None Eo). exact R.
  - destruct (F2_nth_l _ _ _ HV _ _ Ex) as (o & Eo & R). cbn [plus]. rewrite (nth_error_nth _ _ None Eo). exact R.
Qed.

Section Raf.
Variable float_of : str -> option Q.
Variable convert : str -> option attr -> res (Q -> Q).
Notation reads := (reads float_of). Notation reads_height := (reads_height float_of).

Lemma count_shape f t n v w : well_formed f -> on_times f t n -> variable f t = Some v -> variable f n = Some w -> length (v_data w) = count_of f t.
Proof. intros W O Ev Ew. unfold count_of. rewrite Ev. destruct (O v w Ev Ew) as [_ S]. rewrite (W _ _ Ev), (W _ _ Ew), S. reflexivity. Qed.
Lemma variable_column files t n vs rd : Forall well_formed files -> Forall (fun f => on_times f t n) files -> Forall (fun f => variable f t <> None) files -> Forall2 (fun f v => variable f n = Some v) files vs ->
  Forall2 (fun fj o => found rd (In_variable n) (fst fj) (snd fj) o) (all_points_of files t) (concat (map v_data vs)).
Proof.
  intros W O T F. apply (chunked (fun f j o => found rd (In_variable n) f j o)). revert W O T. induction F as [|f v files vs E F IH]; intros W O T; [constructor|]. apply Finv in W. apply Finv in O. apply Finv in T.
  destruct W as [W1 W2]. destruct O as [O1 O2]. destruct T as [T1 T2]. cbn [map]. constructor; [|apply IH; auto]. destruct (variable f t) as [vt|] eqn:Et; [|congruence]. split; [apply (count_shape f t n vt v); auto|]. intros j o Hj. exists v. auto.
Qed.
Lemma variable_coord_column files axis std n c t rd : variable_coord files axis std (Some n) = Ok c -> Forall well_formed files -> Forall (fun f => on_times f t n) files -> Forall (fun f => variable f t <> None) files ->
  c_std c = Some std /\ Forall2 (fun fj o => found rd (In_variable n) (fst fj) (snd fj) o) (all_points_of files t) (c_points c).
Proof.
  unfold variable_coord, create_coord. destruct (column files n) as [vs|] eqn:C; [|discriminate]. cbn [bind]. destruct (concat_arrays (map array_of vs)) as [a|] eqn:A; [|discriminate]. cbn [bind]. intros [= <-] W O T. split; [reflexivity|]. cbn [c_points].
  rewrite (concat_arrays_data _ _ A), map_map. apply variable_column; auto. apply column_ok. auto.
Qed.
Lemma fixed_column files times values t src (R : ncfile -> Q -> Prop) rd axis name : Forall well_formed files -> Forall2 (fun f v => variable f t = Some v) files times -> Forall2 R files values ->
  (forall f q j, R f q -> found rd src f j (Some q)) ->
  Forall2 (fun fj o => found rd src (fst fj) (snd fj) o) (all_points_of files t) (c_points (create_fixed_value_coord axis name values (map (fun v => size (v_shape v)) times))).
Proof.
  intros W T F H. cbn [create_fixed_value_coord c_points]. rewrite flat_map_concat_map. apply (chunked (fun f j o => found rd src f j o)). revert times W T. induction F as [|f q files values HR F IH]; intros times W T; [constructor|].
  apply Finv in W. destruct W as [W1 W2]. apply F2inv in T. destruct T as (v & ts & -> & Ev & T). cbn [map combine]. constructor; [|apply IH; auto]. cbn [fst snd]. split.
  - rewrite repeat_length, size_eq, <- (W1 _ _ Ev). unfold count_of. rewrite Ev. reflexivity.
  - intros j o Ho. apply nth_error_In, repeat_spec in Ho. subst o. apply H. exact HR.
Qed.
Lemma zip_none files vs t : Forall2 (fun f v => variable f t = Some v) files vs -> (forall g, In g files -> attribute g (lit "Time_Stamp_Info") = None) ->
  forall l, l = [] \/ l = [None] -> Forall2 (fun f vt => variable f t = Some (fst vt) /\ snd vt = attribute f (lit "Time_Stamp_Info")) files (zip_stamps vs l).
Proof.
  induction 1 as [|f v files vs E F IH]; intros H l HL; [constructor|]. destruct HL as [->| ->]; cbn [zip_stamps]; (constructor; [cbn [fst snd]; rewrite (H f) by (left; auto); auto|apply IH; auto; intros g Hg; apply H; right; auto]).
Qed.
Lemma zip_some files vs t l : Forall2 (fun f v => variable f t = Some v) files vs -> Forall2 (fun g a => attribute g (lit "Time_Stamp_Info") = Some a) files l ->
  Forall2 (fun f vt => variable f t = Some (fst vt) /\ snd vt = attribute f (lit "Time_Stamp_Info")) files (zip_stamps vs (map Some l)).
Proof. intros F. revert l. induction F as [|f v files vs E F IH]; intros l G; [constructor|]. apply F2inv in G. destruct G as (a & l' & -> & Ea & G). cbn [map zip_stamps]. constructor; [cbn; auto|apply IH; auto]. Qed.
Lemma time_column files s times c t : create_time_coord convert (s_stamps s) (s_time s) times = Ok c -> Forall2 (fun f v => variable f t = Some v) files times -> stamped files s -> stamps_alike files ->
  c_std c = Some (lit "time") /\ Forall2 (fun fj o => time_found convert t (fst fj) (snd fj) o) (all_points_of files t) (c_points c).
Proof.
  unfold create_time_coord. intros E T S A. assert (Z : Forall2 (fun f vt => variable f t = Some (fst vt) /\ snd vt = attribute f (lit "Time_Stamp_Info")) files (zip_stamps times (match s_stamps s with Some l => map Some l | None => [None] end))).
  { unfold stamped in S. destruct (s_stamps s) as [l|]; [apply zip_some; auto|]. apply zip_none; auto. intros g Hg. destruct files as [|f r]; [contradiction|]. destruct Hg as [->|Hg]; [apply (S g r); auto|]. apply (A f r); auto. apply (S f r); auto. }
  destruct (map_res _ _) as [arrs|] eqn:M; [|discriminate]. cbn [bind] in E. destruct (concat_arrays arrs) as [a|] eqn:C; [|discriminate]. cbn [bind] in E. injection E as <-. split; [reflexivity|]. cbn [c_points]. rewrite (concat_arrays_data _ _ C).
  apply (chunked (fun f j o => time_found convert t f j o)). apply map_res_ok in M. clear - M Z. revert arrs M. induction Z as [|f vt files vts (E1 & E2) F IH]; intros arrs M; [inversion M; constructor|].
  apply F2inv in M. destruct M as (b & arrs' & -> & Eb & M). cbn [map]. constructor; [|apply IH; auto]. destruct (convert (v_units (fst vt)) (snd vt)) as [g|] eqn:G; [|discriminate]. cbn [bind] in Eb. injection Eb as <-. cbn [snd].
  rewrite map_length. split; [unfold count_of; rewrite E1; reflexivity|]. intros j o Ho. rewrite nth_error_map in Ho. destruct (nth_error (v_data (fst vt)) j) as [x|] eqn:X; [|discriminate]. injection Ho as <-. exists (fst vt), g, x. rewrite <- E2. auto.
Qed.
Lemma append_all_ok cs : forall l r, append_all l cs = Ok r -> r = l ++ cs.
Proof.
  induction cs as [|c cs IH]; intros l r E; cbn [append_all] in E; [injection E as <-; rewrite app_nil_r; auto|]. unfold coords_append in E. destruct (existsb _ _); [discriminate|]. cbn [bind] in E. apply IH in E. rewrite E, <- app_assoc. reflexivity.
Qed.
Definition position_columns (t : str) (la lo al : source) (p : list str) : list (ncfile * nat -> option Q -> Prop) :=
  (fun fj => time_found convert t (fst fj) (snd fj)) :: (fun fj => found reads la (fst fj) (snd fj)) :: (fun fj => found reads lo (fst fj) (snd fj)) :: (fun fj => found reads_height al (fst fj) (snd fj)) ::
  map (fun n fj => found reads (In_variable n) (fst fj) (snd fj)) p.
Theorem coordinates_sound files s t la lo al p cs : create_coordinates_list convert files s = Ok cs -> serves float_of files s t la lo al p -> stamped files s -> stamps_alike files -> Forall well_formed files ->
  Forall (fun f => source_on_times f t la /\ source_on_times f t lo /\ source_on_times f t al /\ forall n, In n p -> on_times f t n) files ->
  columns_are (all_points_of files t) cs (position_columns t la lo al p) /\ map c_std cs = std_names p.
Proof.
  intros E (ET & EP & HLL & HA) ST SA W ON. unfold create_coordinates_list in E. rewrite ET in E. destruct (column files t) as [times|] eqn:CT; [|discriminate]. apply column_ok in CT. cbn [bind] in E.
  assert (TN : Forall (fun f => variable f t <> None) files). { clear - CT. induction CT; constructor; auto. congruence. }
  assert (OLA : Forall (fun f => source_on_times f t la) files) by (eapply Forall_impl; [|exact ON]; cbn; tauto).
  assert (OLO : Forall (fun f => source_on_times f t lo) files) by (eapply Forall_impl; [|exact ON]; cbn; tauto).
  assert (OAL : Forall (fun f => source_on_times f t al) files) by (eapply Forall_impl; [|exact ON]; cbn; tauto).
  rewrite <- ET in E at 1. destruct (create_time_coord convert (s_stamps s) (s_time s) times) as [tc|] eqn:TC; [|discriminate]. cbn [bind] in E. destruct (time_column files s times tc t TC CT ST SA) as [TS TF].
  destruct (match s_station s with Some (lats, lons) => _ | None => _ end) as [[lac loc]|] eqn:LL; [|discriminate]. cbn [bind fst snd] in E.
  assert (LLF : (c_std lac = Some (lit "latitude") /\ Forall2 (fun fj o => found reads la (fst fj) (snd fj) o) (all_points_of files t) (c_points lac)) /\
                (c_std loc = Some (lit "longitude") /\ Forall2 (fun fj o => found reads lo (fst fj) (snd fj) o) (all_points_of files t) (c_points loc))).
  { destruct HLL as [(n & m & -> & -> & SS & SLa & SLo)|(-> & -> & SLa & SLo & lats & lons & SS & Fla & Flo)]; rewrite SS in LL.
    - rewrite SLa, SLo in LL. destruct (variable_coord files (lit "Y") (lit "latitude") (Some n)) as [c1|] eqn:C1; [|discriminate]. cbn [bind] in LL. destruct (variable_coord files (lit "X") (lit "longitude") (Some m)) as [c2|] eqn:C2; [|discriminate]. cbn [bind] in LL. injection LL as <- <-. split.
      + apply (variable_coord_column files (lit "Y") (lit "latitude") n c1 t reads C1 W); auto. eapply Forall_impl; [|exact OLA]. intros f Hf. apply Hf. reflexivity.
      + apply (variable_coord_column files (lit "X") (lit "longitude") m c2 t reads C2 W); auto. eapply Forall_impl; [|exact OLO]. intros f Hf. apply Hf. reflexivity.
    - injection LL as <- <-. split; (split; [reflexivity|]); (eapply fixed_column; eauto; intros f q j (a & Ea & Ra); exists a, q; auto). }
  destruct LLF as [[SLa FLa] [SLo FLo]].
  destruct (match s_altitude s with Some alts => _ | None => _ end) as [alc|] eqn:AL; [|discriminate]. cbn [bind] in E.
  assert (ALF : c_std alc = Some (lit "altitude") /\ Forall2 (fun fj o => found reads_height al (fst fj) (snd fj) o) (all_points_of files t) (c_points alc)).
  { destruct HA as [(n & -> & Sn & SA')|[(-> & Sn & l & SA' & Fl)|(-> & Sn & SA')]]; rewrite SA' in AL.
    - rewrite Sn in AL. apply (variable_coord_column files (lit "Z") (lit "altitude") n alc t reads_height AL W); auto. eapply Forall_impl; [|exact OAL]. intros f Hf. apply Hf. reflexivity.
    - injection AL as <-. split; [reflexivity|]. eapply fixed_column; eauto. intros f q j (a & Ea & Ra). exists a, q. auto.
    - injection AL as <-. split; [reflexivity|]. apply (fixed_column files times (map (fun _ => 0%Q) files) t Sea_level (fun _ q => q = 0%Q)); auto; [|intros f q j ->; reflexivity]. clear. induction files; constructor; auto. }
  destruct ALF as [SAl FAl]. destruct (append_all [] [tc; lac; loc; alc]) as [l4|] eqn:AP; [|discriminate]. apply append_all_ok in AP. cbn [app] in AP. subst l4. cbn [bind] in E. rewrite <- EP. destruct (s_pressure s) as [pn|] eqn:EPN.
  - destruct (variable_coord files (lit "P") (lit "air_pressure") (Some pn)) as [pc|] eqn:PC; [|discriminate]. cbn [bind] in E. unfold coords_append in E. destruct (existsb _ _); [discriminate|]. injection E as <-.
    assert (OP : Forall (fun f => on_times f t pn) files). { eapply Forall_impl; [|exact ON]. intros f (_ & _ & _ & H). apply H. rewrite <- EP. left. reflexivity. }
    destruct (variable_coord_column files (lit "P") (lit "air_pressure") pn pc t reads PC W OP TN) as [SP FP]. unfold columns_are, position_columns, std_names. cbn [opt_list map app]. split; [repeat (constructor; auto)|congruence].
  - injection E as <-. unfold columns_are, position_columns, std_names. cbn [opt_list map app]. split; [repeat (constructor; auto)|congruence].
Qed.
Lemma position_of_columns t la lo al p f j pos : Forall2 (fun (P : ncfile * nat -> option Q -> Prop) o => P (f, j) o) (position_columns t la lo al p) pos -> own_position float_of convert f t la lo al p j pos.
Proof.
  unfold position_columns. intros H. apply F2inv in H. destruct H as (o1 & p1 & -> & H1 & H). apply F2inv in H. destruct H as (o2 & p2 & -> & H2 & H). apply F2inv in H. destruct H as (o3 & p3 & -> & H3 & H). apply F2inv in H. destruct H as (o4 & p4 & -> & H4 & H).
  exists o1, o2, o3, o4, p4. split; [reflexivity|]. split; [exact H1|]. split; [exact H2|]. split; [exact H3|]. split; [exact H4|]. clear - H. revert p4 H. induction p as [|n p IH]; intros p4 H; cbn [map] in H; [inversion H; constructor|].
  apply F2inv in H. destruct H as (o & p5 & -> & Ho & H). constructor; auto.
Qed.
End Raf.
