(** Proofs for C69, part 4: the sample, and the whole. *)
From Coq Require Import String.
From Verif Require Import Base PyStr QBase LonModel LonSpec LonProofs DateModel DateProofs UngrModel UngrSpec UngrProofs SubsetModel SubsetSpec SubsetProofs AggModel AggProofs Agg3Proofs Agg4Proofs Subset3Proofs GColModel GCol2Proofs InterpModel InterpSpec InterpProofs Interp2Proofs GUModel GUSpec GUProofs GU2Proofs GU3Proofs.
From Coq Require Import List Lia Lqa Arith QArith Qabs.
Import ListNotations.
Open Scope string_scope. Open Scope list_scope. Open Scope nat_scope. Notation length := List.length.

Definition lon_coord (c : coord) : Prop := c_std c = Some (lit "longitude").
(** ** the range of the sample *)
Lemma low_fold pts low : find_longitude_range pts = Ok low -> forall cs acc, (forall sp, In sp cs -> fst sp = Some (lit "longitude") -> snd sp = pts) ->
  fold_left (fun low sp => bind low (fun low => if std_eqb (fst sp) (Some (lit "longitude")) then bind (find_longitude_range (snd sp)) (fun s => Ok (Some s)) else Ok low)) cs (Ok acc) =
  Ok (if existsb (fun sp : option str * list Q => is_lon (fst sp)) cs then Some low else acc).
Proof.
  intros F. induction cs as [|[o p] cs IH]; intros acc H; [reflexivity|]. cbn [fold_left bind fst snd existsb]. change (is_lon o) with (std_eqb o (Some (lit "longitude"))). destruct (std_eqb o (Some (lit "longitude"))) eqn:E.
  - apply std_eqb_eq in E. pose proof (H (o, p) (or_introl eq_refl) E) as X. cbn in X. subst p. rewrite F. cbn [bind orb]. rewrite IH by (intros; apply H; auto; right; auto). destruct (existsb _ cs); reflexivity.
  - cbn [orb]. apply IH. intros. apply H; auto. right. auto.
Qed.
Lemma low_fold_none : forall cs acc, existsb (fun sp : option str * list Q => is_lon (fst sp)) cs = false ->
  fold_left (fun low sp => bind low (fun low => if std_eqb (fst sp) (Some (lit "longitude")) then bind (find_longitude_range (snd sp)) (fun s => Ok (Some s)) else Ok low)) cs (Ok acc) = Ok acc.
Proof.
  induction cs as [|[o p] cs IH]; intros acc H; [reflexivity|]. cbn [fold_left bind fst snd existsb] in *. apply orb_false_iff in H. destruct H as [H1 H2]. change (is_lon o) with (std_eqb o (Some (lit "longitude"))) in H1. rewrite H1. apply IH; auto.
Qed.
Lemma udata_low_some s c low : unique_standard_names (u_coords s) -> In c (u_coords s) -> lon_coord c -> find_longitude_range (somes (c_points c)) = Ok low -> udata_low s = Ok (Some low).
Proof.
  intros HU Hc Hl F. unfold udata_low, sample_low. rewrite (low_fold (somes (c_points c)) low F).
  - replace (existsb _ _) with true; auto. symmetry. apply existsb_exists. exists (c_std c, somes (c_points c)). split; [apply in_map_iff; eauto|]. apply is_lon_spec. exact Hl.
  - intros sp Hsp E. apply in_map_iff in Hsp. destruct Hsp as (c' & <- & Hc'). cbn in *. f_equal. f_equal. apply In_nth_error in Hc, Hc'. destruct Hc as (i & Hi), Hc' as (j & Hj). assert (j = i) by (eapply HU; eauto; discriminate). subst. congruence.
Qed.
Lemma udata_low_none s : (forall c, In c (u_coords s) -> ~ lon_coord c) -> udata_low s = Ok None.
Proof.
  intros H. unfold udata_low, sample_low. apply low_fold_none. destruct (existsb _ _) eqn:E; auto. exfalso. apply existsb_exists in E. destruct E as (sp & Hsp & E). apply in_map_iff in Hsp. destruct Hsp as (c & <- & Hc). apply is_lon_spec in E. apply (H c Hc). exact E.
Qed.
Lemma find_some xs : xs <> [] -> exists low, find_longitude_range xs = Ok low /\ convention_of xs low.
Proof. intros H. destruct xs as [|x xs]; [congruence|]. eexists. split; [reflexivity|]. apply find_range_spec. reflexivity. Qed.
Lemma somes_Some (xs : list Q) : somes (map Some xs) = xs.
Proof. induction xs; cbn; auto. f_equal. auto. Qed.
Lemma wrapped_eq low xs : Forall (in_range low) xs -> Forall2 Qeq (map (wrap_lon low) xs) xs.
Proof. induction 1; cbn; constructor; auto. apply wrap_lon_fixed. auto. Qed.
Lemma convention_of_eq xs ys low : Forall2 Qeq xs ys -> convention_of ys low -> convention_of xs low.
Proof.
  intros H. assert (A : forall y, In y ys -> exists x, In x xs /\ (x == y)%Q) by (induction H; intros z Hz; [contradiction|]; destruct Hz as [<-|Hz]; [eexists; split; [left; eauto|auto]|destruct (IHForall2 _ Hz) as (u & ? & ?); exists u; split; [right|]; auto]).
  assert (B : forall x, In x xs -> exists y, In y ys /\ (x == y)%Q) by (clear A; induction H; intros z Hz; [contradiction|]; destruct Hz as [<-|Hz]; [eexists; split; [left; eauto|auto]|destruct (IHForall2 _ Hz) as (u & ? & ?); exists u; split; [right|]; auto]).
  intros [[(p & P1 & P2) ->]|[K ->]]; [left|right]; split; auto.
  - destruct (A p P1) as (x & X1 & X2). exists x. split; auto. rewrite X2. auto.
  - intros p Hp. destruct (B p Hp) as (y & Y1 & Y2). rewrite Y2. auto.
Qed.

Definition fix_coord (low : Q) (c : coord) : coord := if is_lon (c_std c) then set_points c (c_shape c) (map (option_map (wrap_lon low)) (c_points c)) else c.
Definition fixed_sample (low : Q) (s : udata) : udata := mkU (map (fix_coord low) (u_coords s)) (u_shape s) (u_values s).
Lemma fix_identity low c : identity_of (fix_coord low c) = identity_of c. Proof. unfold fix_coord. destruct (is_lon (c_std c)); reflexivity. Qed.
Lemma fix_std low c : c_std (fix_coord low c) = c_std c. Proof. unfold fix_coord. destruct (is_lon (c_std c)); reflexivity. Qed.
Lemma wrap_sample_ok low s c : unique_standard_names (u_coords s) -> In c (u_coords s) -> lon_coord c -> wrap_sample low s = Ok (fixed_sample low s).
Proof. intros HU Hc Hl. unfold wrap_sample. rewrite (lookup_found (u_coords s) longitude c); auto. discriminate. Qed.
Lemma fixed_unique low s : unique_standard_names (u_coords s) -> unique_standard_names (u_coords (fixed_sample low s)).
Proof.
  intros HU i j a b n Hi Hj Hn Ha Hb. cbn in *. rewrite nth_error_map in *. destruct (nth_error (u_coords s) i) as [a0|] eqn:Ei; [|discriminate]. destruct (nth_error (u_coords s) j) as [b0|] eqn:Ej; [|discriminate]. cbn in *.
  injection Hi as <-. injection Hj as <-. rewrite fix_std in *. eapply HU; eauto.
Qed.
(** all longitudes within the range, which is the one found *)
Definition lon_state (s : udata) (low : Q) : Prop := (exists c, In c (u_coords s) /\ lon_coord c) /\ forall c, In c (u_coords s) -> lon_coord c -> exists ys, c_points c = map Some ys /\ ys <> [] /\ convention_of ys low /\ Forall (in_range low) ys.
Lemma fixed_lon low s c c' : unique_standard_names (u_coords s) -> In c (u_coords s) -> lon_coord c -> In c' (u_coords (fixed_sample low s)) -> lon_coord c' -> c' = fix_coord low c.
Proof.
  intros HU Hc Hl Hc' Hl'. cbn in Hc'. apply in_map_iff in Hc'. destruct Hc' as (c0 & <- & H0). unfold lon_coord in *. rewrite fix_std in Hl'. f_equal. apply In_nth_error in Hc, H0. destruct Hc as (i & Hi), H0 as (j & Hj). assert (j = i) by (eapply HU; eauto; discriminate). subst. congruence.
Qed.
Lemma fix_points_of low c xs : lon_coord c -> c_points c = map Some xs -> c_points (fix_coord low c) = map Some (map (wrap_lon low) xs).
Proof. intros Hl E. unfold fix_coord. rewrite (proj2 (is_lon_spec _) Hl). cbn. rewrite E, !map_map. reflexivity. Qed.
Lemma turned_in_range low xs : Forall (in_range low) (map (wrap_lon low) xs).
Proof. apply Forall_forall. intros y Hy. apply in_map_iff in Hy. destruct Hy as (x & <- & _). apply wrap_lon_range. Qed.
Lemma fix_first s c xs : unique_standard_names (u_coords s) -> In c (u_coords s) -> lon_coord c -> c_points c = map Some xs -> xs <> [] ->
  exists low1 low2, udata_low s = Ok (Some low1) /\ wrap_sample low1 s = Ok (fixed_sample low1 s) /\ udata_low (fixed_sample low1 s) = Ok (Some low2) /\ lon_state (fixed_sample low1 s) low2 /\ convention s low2 /\
    (forall low, convention_of xs low -> Forall (in_range low) xs -> low1 = low /\ low2 = low).
Proof.
  intros HU Hc Hl E NE. destruct (find_some xs NE) as (low1 & F1 & C1). set (ys := map (wrap_lon low1) xs). assert (NY : ys <> []) by (unfold ys; destruct xs; [congruence|discriminate]).
  destruct (find_some ys NY) as (low2 & F2 & C2). exists low1, low2.
  assert (Hc1 : In (fix_coord low1 c) (u_coords (fixed_sample low1 s))) by (apply in_map; auto). assert (Hl1 : lon_coord (fix_coord low1 c)) by (unfold lon_coord; rewrite fix_std; auto).
  assert (RY : Forall (in_range low1) ys) by apply turned_in_range.
  assert (RG : Forall (in_range low2) ys /\ convention s low2).
  { unfold convention. rewrite Forall_forall in RY. destruct C1 as [[(z & Z1 & Z2) ->]|[P1 ->]].
    - destruct C2 as [[(y & Y1 & Y2) ->]|[P2 ->]].
      + split; [apply Forall_forall; auto|]. exists c. split; auto. split; auto. left. split; auto. unfold ys in Y1. apply in_map_iff in Y1. destruct Y1 as (x & <- & X1). exists x, (wrap_lon (-(180)) x). rewrite E. split; [apply in_map; auto|]. split; [apply wrap_lon_same|]. split; [split; [apply wrap_lon_range|auto]|].
        exists z. split; [apply in_map; auto|auto].
      + split; [apply Forall_forall; intros y Hy; specialize (RY y Hy); specialize (P2 y Hy); unfold in_range in *; lra|]. exists c. split; auto. split; auto. right. split; auto. right. intros x y Hx Sy Ry. rewrite E in Hx. apply in_map_iff in Hx. destruct Hx as (x0 & [= ->] & Hx).
        assert (y == wrap_lon (-(180)) x)%Q as ->; [|apply P2; apply in_map; auto]. apply in_range_unique with (s := (-(180))%Q); [apply wrap_lon_range|unfold in_range; lra|]. eapply meridian_trans; [apply meridian_sym, wrap_lon_same|auto].
    - assert (low2 = 0%Q) as ->. { destruct C2 as [[(y & Y1 & Y2) _]|[_ ->]]; auto. specialize (RY y Y1). unfold in_range in RY. lra. }
      split; [apply Forall_forall; auto|]. exists c. split; auto. split; auto. right. split; auto. left. intros x Hx. rewrite E in Hx. apply in_map_iff in Hx. destruct Hx as (x0 & [= ->] & Hx). auto. }
  destruct RG as [RG CV]. split; [eapply udata_low_some; eauto; rewrite E, somes_Some; auto|]. split; [eapply wrap_sample_ok; eauto|]. split.
  { eapply udata_low_some; [apply fixed_unique; auto|exact Hc1|auto|]. rewrite (fix_points_of low1 c xs) by auto. rewrite somes_Some. exact F2. }
  split; [|split; auto].
  - split; [eauto|]. intros c' Hc' Hl'. rewrite (fixed_lon low1 s c c') by auto. exists ys. split; [apply fix_points_of; auto|]. auto.
  - intros low CL RL. assert (low1 = low) by (eapply convention_of_unique; eauto). subst low1. split; auto. eapply convention_of_unique; [exact C2|]. eapply convention_of_eq; [apply wrapped_eq; auto|auto].
Qed.
Lemma fixed_turns low s : aligned s -> same_but_turns s (fixed_sample low s).
Proof.
  intros _. split; [reflexivity|]. cbn. induction (u_coords s) as [|c cs IH]; cbn; constructor; auto. split; [apply fix_identity|]. unfold fix_coord. destruct (is_lon (c_std c)) eqn:L; cbn.
  - split; [apply map_length|]. intros i x Hx. exists (wrap_lon low x). split; [rewrite nth_error_map, Hx; reflexivity|apply wrap_lon_same].
  - split; auto. intros i x Hx. exists x. auto.
Qed.
Lemma turns_trans s s1 s2 : same_but_turns s s1 -> same_but_turns s1 s2 -> same_but_turns s s2.
Proof.
  intros [V1 F1] [V2 F2]. split; [congruence|]. revert F2. generalize (u_coords s2). induction F1 as [|c c1 cs cs1 (I & L & H) F1 IH]; intros l F2; inversion F2 as [|? c2 ? cs2 (I2 & L2 & H2) F3]; subst; constructor; auto.
  split; [congruence|]. split; [congruence|]. intros i x Hx. destruct (H i x Hx) as (x1 & Hx1 & R1). destruct (H2 i x1 Hx1) as (x2 & Hx2 & R2). exists x2. split; auto. assert (c_std c1 = c_std c) by (unfold identity_of in I; congruence). rewrite H0 in R2. destruct (is_lon (c_std c)); [eapply meridian_trans; eauto|congruence].
Qed.
Lemma turns_refl s : same_but_turns s s.
Proof. split; auto. induction (u_coords s); constructor; auto. split; auto. split; auto. intros i x Hx. exists x. split; auto. destruct (is_lon (c_std a)); auto. apply same_meridian_refl. Qed.
