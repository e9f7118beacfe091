(** Proofs for C75: the times, and the whole. *)
From Coq Require Import String.
From Verif Require Import Base PyStr QBase NcgModel NcgSpec NcgProofs.
From Coq Require Import List Lia.
Import ListNotations.
Open Scope string_scope. Open Scope list_scope. Open Scope nat_scope. Notation length := List.length.

Lemma filter_none {A} (p : A -> bool) l : filter p l = [] <-> Forall (fun x => p x = false) l.
Proof. induction l as [|x l IH]; cbn; [split; auto|]. destruct (p x) eqn:E; split; intros H; try discriminate; [inversion H; congruence|constructor; [auto|apply IH; auto]|inversion H; subst; apply IH; auto]. Qed.
Lemma filter_single {A} (p : A -> bool) l x : filter p l = [x] <-> exists pre post, l = pre ++ x :: post /\ p x = true /\ Forall (fun y => p y = false) (pre ++ post).
Proof.
  split.
  - induction l as [|y l IH]; cbn; [discriminate|]. destruct (p y) eqn:E.
    + intros H. injection H as -> H. exists [], l. split; [reflexivity|]. split; [exact E|]. cbn. apply filter_none. exact H.
    + intros H. destruct (IH H) as (pre & post & -> & P & F). exists (y :: pre), post. split; [reflexivity|]. split; [exact P|]. cbn. constructor; auto.
  - intros (pre & post & -> & P & F). apply Forall_app in F. destruct F as [F1 F2]. rewrite filter_app. cbn [filter]. rewrite P. apply filter_none in F1, F2. rewrite F1, F2. reflexivity.
Qed.
Lemma is_time_dim_iff k : is_time_dim k = true <-> time_dim k.
Proof. unfold time_dim. destruct k as [k|]; cbn [is_time_dim]; [rewrite is_iff; split; [intros E; exists k; auto|intros (d & [= ->] & E); exact E]|split; [discriminate|intros (d & [=] & _)]]. Qed.
Lemma is_time_dim_not k : is_time_dim k = false <-> ~ time_dim k.
Proof. rewrite <- is_time_dim_iff. destruct (is_time_dim k); split; congruence. Qed.
Lemma Forall_iff {A} (P R : A -> Prop) l : (forall x, P x <-> R x) -> (Forall P l <-> Forall R l).
Proof. intros H. rewrite !Forall_forall. split; intros K x Hx; apply H, K, Hx. Qed.
Lemma one_time_dim_iff c : one_time_dim c <-> (exists k, filter is_time_dim (q_dims c) = [k]) /\ filter (fun a => is (x_std a) (lit "time")) (q_aux c) = [].
Proof.
  unfold one_time_dim. rewrite filter_none. rewrite (Forall_iff (fun a => ~ time_aux a) (fun a => is (x_std a) (lit "time") = false)) by (intros a; unfold time_aux; rewrite is_not; reflexivity). apply and_iff_compat_r. split.
  - intros (pre & k & post & E & T & F). exists k. apply filter_single. exists pre, post. split; [exact E|]. split; [apply is_time_dim_iff; exact T|]. eapply Forall_iff; [|exact F]. intros; apply is_time_dim_not.
  - intros (k & E). apply filter_single in E. destruct E as (pre & post & E & T & F). exists pre, k, post. split; [exact E|]. split; [apply is_time_dim_iff; exact T|]. eapply Forall_iff; [|exact F]. intros x; cbn beta; rewrite is_time_dim_not; reflexivity.
Qed.
Lemma one_time_aux_iff c a : one_time_aux c a <-> filter is_time_dim (q_dims c) = [] /\ filter (fun a => is (x_std a) (lit "time")) (q_aux c) = [a].
Proof.
  unfold one_time_aux. rewrite filter_none, filter_single. rewrite (Forall_iff (fun k => ~ time_dim k) (fun k => is_time_dim k = false)) by (intros k; rewrite is_time_dim_not; reflexivity). apply and_iff_compat_l. split; intros (pre & post & E & T & F); exists pre, post; (split; [exact E|]); (split; [apply is_iff; exact T|]); (eapply Forall_iff; [|exact F]); intros x; unfold time_aux; rewrite is_not; reflexivity.
Qed.
Section Ncg.
Variable together : list gcube -> option gcube.
Variable std_time : str -> Q -> option Q.
Lemma convert_points_ok u l : (forall x, In x l -> exists y, std_time u x = Some y) -> exists m, convert_points std_time u l = Ok m /\ Forall2 (fun x y => std_time u x = Some y) l m.
Proof.
  induction l as [|x l IH]; intros H; [exists []; split; [reflexivity|constructor]|]. destruct (H x (or_introl eq_refl)) as (y & E). destruct IH as (m & Em & F); [intros; apply H; right; auto|]. exists (y :: m). cbn [convert_points]. rewrite E, Em. cbn [bind]. split; [reflexivity|constructor; auto].
Qed.
Lemma convert_dims_ok ks : (forall k, In (Some k) ks -> k_std k = Some (lit "time") -> forall x, In x (k_points k) -> exists y, std_time (k_units k) x = Some y) -> exists ks', convert_dims std_time ks = Ok ks' /\ Forall2 (in_standard_time std_time) ks ks'.
Proof.
  induction ks as [|k ks IH]; intros H; [exists []; split; [reflexivity|constructor]|]. destruct IH as (ks' & E & F); [intros k' Hk'; apply H; right; auto|]. cbn [convert_dims]. destruct (is_time_dim k) eqn:T.
  - apply is_time_dim_iff in T. destruct T as (d & -> & T). destruct (convert_points_ok (k_units d) (k_points d)) as (m & Em & Fm); [apply H; [left; reflexivity|exact T]|]. rewrite Em. cbn [bind]. rewrite E. cbn [bind]. eexists. split; [reflexivity|]. constructor; [|exact F]. apply a_time; auto.
  - apply is_time_dim_not in T. cbn [bind]. rewrite E. cbn [bind]. eexists. split; [reflexivity|]. constructor; [apply another; exact T|exact F].
Qed.
Lemma read_ok raw v c : one_cube together raw (has_name v) c -> plain_cube c -> (forall n g, In n vertical -> source together raw n g -> ~ overhangs g c) -> convertible std_time c -> (forall a, one_time_aux c a -> x_dims a = []) ->
  exists r, create_data_object together std_time raw (Some v) = Ok r /\ same_variable c r /\ times_read std_time c r /\ exists h p, q_aux r = q_aux c ++ h ++ p /\ heights together raw c h /\ pressures together raw c p.
Proof.
  intros O PC NO CV TA. apply (load_one together _ (named_cube v)) in O; [|intros; apply named_cube_iff]. unfold create_data_object, create_cube. rewrite O.
  destruct (aux_added together raw c PC NO) as (h & p & E & H & P & NT). rewrite E. cbn [bind]. unfold convert_cube_time_coord. cbn [with_aux q_dims q_aux].
  assert (FA : filter (fun a => is (x_std a) (lit "time")) (q_aux c ++ h ++ p) = filter (fun a => is (x_std a) (lit "time")) (q_aux c)).
  { rewrite filter_app, (proj2 (filter_none _ (h ++ p))); [apply app_nil_r|]. apply Forall_forall. intros a Ha. apply is_not. apply NT. exact Ha. }
  rewrite FA. pose proof (one_time_dim_iff c) as OD. pose proof (one_time_aux_iff c) as OA.
  assert (Keep : ~ one_time_dim c -> exists r, Ok (with_aux c (h ++ p)) = Ok r /\ same_variable c r /\ times_read std_time c r /\ exists h p, q_aux r = q_aux c ++ h ++ p /\ heights together raw c h /\ pressures together raw c p).
  { intros N. eexists. split; [reflexivity|]. split; [repeat split|]. split; [right; split; [exact N|reflexivity]|]. exists h, p. auto. }
  destruct (filter is_time_dim (q_dims c)) as [|k [|k2 kl]] eqn:FD; destruct (filter _ (q_aux c)) as [|a [|a2 al]] eqn:FX; try (apply Keep; intros N; apply OD in N; destruct N as [(? & N) ?]; congruence).
  - assert (T : one_time_aux c a) by (apply OA; auto). rewrite (TA a T). apply Keep. intros N; apply OD in N; destruct N as [(? & N) ?]; congruence.
  - destruct (convert_dims_ok (q_dims c) CV) as (ks' & Ek & Fk). rewrite Ek. cbn [bind]. eexists. split; [reflexivity|]. split; [repeat split|]. split; [left; split; [apply OD; split; [exists k; reflexivity|reflexivity]|exact Fk]|]. exists h, p. auto.
Qed.
Lemma read_refused raw v : no_cube together raw (has_name v) -> create_data_object together std_time raw (Some v) = Raises InvalidVariableError.
Proof. intros O. apply (load_none together _ (named_cube v)) in O; [|intros; apply named_cube_iff]. unfold create_data_object, create_cube. rewrite O. reflexivity. Qed.
Lemma read_aux_time raw v c a : one_cube together raw (has_name v) c -> plain_cube c -> (forall n g, In n vertical -> source together raw n g -> ~ overhangs g c) -> one_time_aux c a -> x_dims a <> [] -> create_data_object together std_time raw (Some v) = Raises ValueError.
Proof.
  intros O PC NO TA D. apply (load_one together _ (named_cube v)) in O; [|intros; apply named_cube_iff]. unfold create_data_object, create_cube. rewrite O.
  destruct (aux_added together raw c PC NO) as (h & p & E & H & P & NT). rewrite E. cbn [bind]. unfold convert_cube_time_coord. cbn [with_aux q_dims q_aux].
  assert (FA : filter (fun a => is (x_std a) (lit "time")) (q_aux c ++ h ++ p) = filter (fun a => is (x_std a) (lit "time")) (q_aux c)).
  { rewrite filter_app, (proj2 (filter_none _ (h ++ p))); [apply app_nil_r|]. apply Forall_forall. intros b Hb. apply is_not. apply NT. exact Hb. }
  rewrite FA. apply one_time_aux_iff in TA. destruct TA as [-> ->]. destruct (x_dims a); [congruence|reflexivity].
Qed.
Lemma available_shape raw c nf : (exists g, snd nf g = snd nf g) -> (exists c', add_available together raw c nf = Ok c' /\ q_shape c' = q_shape c) \/ add_available together raw c nf = Raises IndexError.
Proof.
  intros _. unfold add_available. destruct (load_total together raw (fun g => is (q_std g) (fst nf))) as [(g & E)|E]; rewrite E; cbn [bind]; [|left; exists c; auto]. unfold add_aux_coord.
  assert (K : forall shape dims cs, check_dims shape dims cs = Ok tt \/ check_dims shape dims cs = Raises ValueError \/ check_dims shape dims cs = Raises IndexError).
  { induction shape as [|n shape IH]; intros [|d dims] cs; cbn [check_dims]; auto. destruct (nth_error cs d); [|auto]. destruct (n =? n0); auto. }
  destruct (K (x_shape (snd nf g)) (x_dims (snd nf g)) (q_shape c)) as [->|[->| ->]]; cbn [bind]; [|left; exists c; auto|right; reflexivity]. destruct (_ || _); [left; exists c; auto|]. left. eexists. split; reflexivity.
Qed.
Lemma read_overhang raw v c n g : one_cube together raw (has_name v) c -> In n vertical -> source together raw n g -> overhangs g c -> create_data_object together std_time raw (Some v) = Raises IndexError.
Proof.
  intros O Hn S OV. apply (load_one together _ (named_cube v)) in O; [|intros; apply named_cube_iff]. unfold create_data_object, create_cube. rewrite O. apply source_iff in S.
  assert (X : forall c' std long var units f, q_shape c' = q_shape c -> add_available together raw c' (lit n, fun g => positional std long var units g f) = Raises IndexError).
  { intros c' std long var units f E. unfold add_available. cbn [fst snd]. rewrite S. cbn [bind]. unfold add_aux_coord. cbn [positional x_shape x_dims]. rewrite E. destruct OV as (m & more & ->). pose proof (check_over 0 (q_shape c) m more ltac:(lia)) as K. cbn [skipn] in K. rewrite K. reflexivity. }
  unfold add_available_aux_coords, aux_coord_creation_functions. cbn [fold_left bind].
  destruct Hn as [<-|[<-|[<-|[]]]].
  - unfold from_geopotential at 1. rewrite X by reflexivity. reflexivity.
  - destruct (available_shape raw c (lit "geopotential", from_geopotential)) as [(c1 & E1 & S1)|E1]; [exists g; reflexivity| |]; rewrite E1; cbn [bind]; [|reflexivity]. unfold from_geopotential_height at 1. rewrite X by exact S1. reflexivity.
  - destruct (available_shape raw c (lit "geopotential", from_geopotential)) as [(c1 & E1 & S1)|E1]; [exists g; reflexivity| |]; rewrite E1; cbn [bind]; [|reflexivity].
    destruct (available_shape raw c1 (lit "geopotential_height", from_geopotential_height)) as [(c2 & E2 & S2)|E2]; [exists g; reflexivity| |]; rewrite E2; cbn [bind]; [|reflexivity]. unfold from_air_pressure at 1. rewrite X by congruence. reflexivity.
Qed.
Lemma place_prefix ks : forall i pl n, at_place ks i pl -> at_place (firstn n ks) (firstn n i) (firstn n pl).
Proof. intros i pl n H. revert n. induction H; intros [|n]; cbn [firstn]; constructor; auto. Qed.
(** own heights: at the same place *)
Lemma own_place c g std units f a : gives c g std units f a -> length (q_dims g) = length (q_shape g) -> q_dims g = firstn (length (q_dims g)) (q_dims c) ->
  forall i pl, cell c i -> at_place (q_dims c) i pl -> exists j, at_place (q_dims g) j (firstn (length j) pl) /\ aux_at a i = option_map f (q_at g j).
Proof.
  intros (_ & _ & G) L D i pl Hi Hp. exists (firstn (length (q_shape g)) i). split; [|apply G; exact Hi]. pose proof (place_prefix _ _ _ (length (q_shape g)) Hp) as K. rewrite <- L in K at 1. rewrite <- D in K.
  assert (Lj : length (firstn (length (q_shape g)) i) = length (q_shape g)). { assert (A : forall ks js ps, at_place ks js ps -> length js = length ks) by (intros ks js ps X; induction X; cbn; congruence). rewrite (A _ _ _ K). exact L. }
  rewrite Lj. exact K.
Qed.
Variable of_space_or_time : str -> bool.
Lemma offered_iff c : offered of_space_or_time c = true <-> space_time of_space_or_time c.
Proof.
  unfold offered, space_time. rewrite forallb_forall. split.
  - intros H k Hk L. specialize (H _ Hk). cbn beta iota in H. apply Nat.ltb_lt in L. rewrite L in H. cbn in H. destruct (of_space_or_time (k_units k)); auto.
  - intros H [k|] Hk; [|reflexivity]. destruct (1 <? length (k_points k)) eqn:L; [|reflexivity]. apply Nat.ltb_lt in L. rewrite (H k Hk L). reflexivity.
Qed.
Lemma variable_name_iff c s : variable_name c = s <-> offered_as c s.
Proof.
  unfold variable_name, cube_name, full. split.
  - assert (R : no_name (q_var c) -> forall s, (match (if match q_std c with Some (_ :: _) => true | _ => false end then q_std c else if match q_long c with Some (_ :: _) => true | _ => false end then q_long c else if match q_var c with Some (_ :: _) => true | _ => false end then q_var c else None) with Some s => s | None => lit "unknown" end) = s -> offered_as c s).
    { intros NV s0. destruct (q_std c) as [[|y t]|] eqn:S.
      - destruct (q_long c) as [[|z w]|] eqn:L; [|intros <-; apply by_long; auto; [right; auto|split; [auto|discriminate]]|]; destruct NV as [V|V]; rewrite V; intros <-; apply unknown; unfold no_name; rewrite ?V, ?S, ?L; auto.
      - intros <-. apply by_std; auto. split; [auto|discriminate].
      - destruct (q_long c) as [[|z w]|] eqn:L; [|intros <-; apply by_long; auto; [left; auto|split; [auto|discriminate]]|]; destruct NV as [V|V]; rewrite V; intros <-; apply unknown; unfold no_name; rewrite ?V, ?S, ?L; auto. }
    destruct (q_var c) as [[|x v]|] eqn:V.
    + apply R. right; reflexivity.
    + intros <-. apply by_var. split; [first [exact V|rewrite V; reflexivity]|discriminate].
    + apply R. left; reflexivity.
  - intros [t [V N]|t NV [S N]|t NV NS [L N]|NV NS NL].
    + rewrite V. destruct t; congruence.
    + rewrite S. destruct NV as [->| ->]; destruct t; congruence.
    + rewrite L. destruct NV as [->| ->], NS as [->| ->]; destruct t; congruence.
    + destruct NV as [->| ->], NS as [->| ->], NL as [->| ->]; reflexivity.
Qed.
Lemma names_ok loaded n : In n (get_variable_names of_space_or_time loaded) <-> exists c, In c loaded /\ space_time of_space_or_time c /\ offered_as c n.
Proof.
  unfold get_variable_names. rewrite nodup_In, in_map_iff. split.
  - intros (c & E & Hc). apply filter_In in Hc. exists c. split; [apply Hc|]. split; [apply offered_iff, Hc|apply variable_name_iff, E].
  - intros (c & Hc & S & O). exists c. split; [apply variable_name_iff, O|]. apply filter_In. split; [exact Hc|apply offered_iff, S].
Qed.
Lemma offered_found pre c post n : offered_as c n -> n <> lit "unknown" -> (forall d, In d (pre ++ post) -> ~ has_name n d) -> one_cube together (pre ++ c :: post) (has_name n) c.
Proof.
  intros O U N. assert (HC : has_name n c) by (unfold has_name; inversion O as [s [V _]|s _ [V _]|s _ _ [V _]|]; subst; auto; congruence). exists [c]. split; [|left; reflexivity]. induction pre as [|d pre IH]; cbn [app] in *.
  - apply picks_yes; [exact HC|]. clear -N. induction post as [|d post IH]; [constructor|]. apply picks_no; [apply N; left; auto|apply IH; intros; apply N; right; auto].
  - apply picks_no; [apply N; left; auto|apply IH; intros; apply N; right; auto].
Qed.
End Ncg.
