(** Proofs for C86: the coordinates, and the whole. *)
From Coq Require Import String.
From Verif Require Import Base PyStr QBase DateModel DateProofs FileListModel L3Model NcgModel NcgSpec NcgProofs Ncg2Proofs HadModel HadSpec HadProofs.
From Coq Require Import List Lia.
Import ListNotations.
Open Scope string_scope. Open Scope list_scope. Open Scope nat_scope. Notation length := List.length.

Lemma one_count {A} (P : A -> Prop) (p : A -> bool) l : (forall x, p x = true <-> P x) -> at_most_one P l -> length (filter p l) <= 1.
Proof.
  intros H M. induction l as [|x l IH]; [cbn; lia|]. assert (IH' : length (filter p l) <= 1). { apply IH. intros pre y mid z post E. apply (M (x :: pre) y mid z post). rewrite E. reflexivity. }
  cbn [filter]. destruct (p x) eqn:E; [|exact IH']. cbn [length]. destruct (filter p l) as [|y m] eqn:F; [cbn; lia|]. exfalso.
  assert (Hy : In y (filter p l)) by (rewrite F; left; reflexivity). apply filter_In in Hy. destruct Hy as [Hy Ey]. apply in_split in Hy. destruct Hy as (u & v & ->). apply (M [] x u y v eq_refl); apply H; auto.
Qed.
Definition on_coord (p : option dimc -> bool) (q : auxc -> bool) (x : coordinate) : bool := match x with Dim d => p (Some d) | Aux a => q a end.
Lemma filter_coords p q c : p None = false -> length (filter (on_coord p q) (coordinates c)) = length (filter p (q_dims c)) + length (filter q (q_aux c)).
Proof.
  intros N. unfold coordinates. rewrite filter_app, app_length. f_equal.
  - induction (q_dims c) as [|[d|] ks IH]; cbn [flat_map filter app]; [reflexivity| |rewrite N; exact IH]. cbn [on_coord]. destruct (p (Some d)); cbn [length]; rewrite IH; reflexivity.
  - induction (q_aux c) as [|a l IH]; cbn [map filter]; [reflexivity|]. cbn [on_coord]. destruct (q a); cbn [length]; rewrite IH; reflexivity.
Qed.
Lemma in_dims c d : In (Some d) (q_dims c) -> In (Dim d) (coordinates c).
Proof. intros H. unfold coordinates. apply in_or_app. left. apply in_flat_map. exists (Some d). split; [exact H|left; reflexivity]. Qed.
Lemma in_aux c a : In a (q_aux c) -> In (Aux a) (coordinates c).
Proof. intros H. unfold coordinates. apply in_or_app. right. apply in_map. exact H. Qed.
Definition timelyb (std long : option str) : bool := is long (lit "t") || is std (lit "time").
Lemma timelyb_iff std long : timelyb std long = true <-> t_or_time std long.
Proof. unfold timelyb, t_or_time. rewrite Bool.orb_true_iff, !is_iff. reflexivity. Qed.
Definition timely_dim (k : option dimc) : bool := match k with Some d => timelyb (k_std d) (k_long d) | None => false end.
Definition timely_aux (a : auxc) : bool := timelyb (x_std a) (x_long a).
Lemma timely_iff x : on_coord timely_dim timely_aux x = true <-> timely x.
Proof. destruct x; cbn; apply timelyb_iff. Qed.
Lemma height_name : lit "Hybrid height" <> lit "unknown".
Proof. intros E. vm_compute in E. discriminate E. Qed.
Lemma height_iff x : on_coord hybrid_dim hybrid_aux x = true <-> height x.
Proof. destruct x; cbn [on_coord height hybrid_dim hybrid_aux]; apply called_iff, height_name. Qed.

Section Had.
Variable together : list gcube -> option gcube.
Variable std_time : str -> Q -> option Q.
Variable unit_to : str -> str -> option (Q -> Q).
(** coordinates before the time is converted *)
Inductive edim : option dimc -> option dimc -> Prop :=
| e_none : edim None None
| e_height d f : height_dim d -> ~ t_or_time (k_std d) (k_long d) -> unit_to (k_units d) (lit "m") = Some f -> edim (Some d) (Some (mkDimc (k_std d) (k_long d) (k_var d) (lit "m") (map f (k_points d))))
| e_time d : t_or_time (k_std d) (k_long d) -> edim (Some d) (Some (mkDimc (Some (lit "time")) (k_long d) (k_var d) (k_units d) (k_points d)))
| e_other d : ~ height_dim d -> ~ t_or_time (k_std d) (k_long d) -> edim (Some d) (Some d).
Inductive eaux : auxc -> auxc -> Prop :=
| ea_height a f : height_aux a -> ~ t_or_time (x_std a) (x_long a) -> unit_to (x_units a) (lit "m") = Some f -> eaux a (mkAux (x_std a) (x_long a) (x_var a) (lit "m") (x_dims a) (x_shape a) (fun i => option_map f (x_at a i)))
| ea_time a : t_or_time (x_std a) (x_long a) -> eaux a (mkAux (Some (lit "time")) (x_long a) (x_var a) (x_units a) (x_dims a) (x_shape a) (x_at a))
| ea_other a : ~ height_aux a -> ~ t_or_time (x_std a) (x_long a) -> eaux a a.
Lemma not_t std long : ~ t_or_time std long -> is long (lit "t") = false.
Proof. intros N. apply is_not. intros E. apply N. left. exact E. Qed.
Lemma edim_of c k : clear std_time unit_to c -> In k (q_dims c) -> exists k1, metres_dim unit_to k = Ok k1 /\ edim k (time_dim_of k1) /\ t_dim k1 = t_dim k.
Proof.
  intros (_ & _ & X & CH & _ & _) Hk. destruct k as [d|]; [|exists None; repeat split; constructor]. pose proof (in_dims c d Hk) as Hd. specialize (X _ Hd). specialize (CH _ Hd). cbn [height timely units_of] in X, CH.
  pose proof (height_iff (Dim d)) as HI. cbn [on_coord height] in HI. unfold metres_dim. destruct (hybrid_dim (Some d)) eqn:E.
  - assert (H : height_dim d) by (apply HI; reflexivity). destruct (CH H) as (f & F). rewrite F. eexists. split; [reflexivity|]. split; [|reflexivity]. unfold time_dim_of, t_dim. cbn [k_long]. rewrite (not_t _ _ (X H)). apply e_height; auto.
  - assert (H : ~ height_dim d) by (intros K; apply HI in K; congruence). exists (Some d). split; [reflexivity|]. split; [|reflexivity]. unfold time_dim_of, t_dim. destruct (timelyb (k_std d) (k_long d)) eqn:T.
    + pose proof (proj1 (timelyb_iff _ _) T) as T'. destruct (is (k_long d) (lit "t")) eqn:L; [apply e_time; exact T'|]. destruct T' as [T'|T']; [apply is_iff in T'; congruence|]. pose proof (e_time d (or_intror T')) as G. rewrite <- T' in G. destruct d; exact G.
    + assert (N : ~ t_or_time (k_std d) (k_long d)) by (intros K; apply timelyb_iff in K; congruence). rewrite (not_t _ _ N). apply e_other; auto.
Qed.
Lemma eaux_of c a : clear std_time unit_to c -> In a (q_aux c) -> exists a1, metres_aux unit_to a = Ok a1 /\ eaux a (time_aux_of a1) /\ t_aux a1 = t_aux a.
Proof.
  intros (_ & _ & X & CH & _ & _) Hk. pose proof (in_aux c a Hk) as Hd. specialize (X _ Hd). specialize (CH _ Hd). cbn [height timely units_of] in X, CH.
  pose proof (height_iff (Aux a)) as HI. cbn [on_coord height] in HI. unfold metres_aux. destruct (hybrid_aux a) eqn:E.
  - assert (H : height_aux a) by (apply HI; reflexivity). destruct (CH H) as (f & F). rewrite F. eexists. split; [reflexivity|]. split; [|reflexivity]. unfold time_aux_of, t_aux. cbn [x_long]. rewrite (not_t _ _ (X H)). apply ea_height; auto.
  - assert (H : ~ height_aux a) by (intros K; apply HI in K; congruence). exists a. split; [reflexivity|]. split; [|reflexivity]. unfold time_aux_of, t_aux. destruct (timelyb (x_std a) (x_long a)) eqn:T.
    + pose proof (proj1 (timelyb_iff _ _) T) as T'. destruct (is (x_long a) (lit "t")) eqn:L; [apply ea_time; exact T'|]. destruct T' as [T'|T']; [apply is_iff in T'; congruence|]. pose proof (ea_time a (or_intror T')) as G. rewrite <- T' in G. destruct a; exact G.
    + assert (N : ~ t_or_time (x_std a) (x_long a)) by (intros K; apply timelyb_iff in K; congruence). rewrite (not_t _ _ N). apply ea_other; auto.
Qed.
Lemma map_res_all {A B} (f : A -> res B) (R : A -> B -> Prop) l : (forall x, In x l -> exists y, f x = Ok y /\ R x y) -> exists m, map_res f l = Ok m /\ Forall2 R l m.
Proof.
  induction l as [|x l IH]; intros H; [exists []; split; [reflexivity|constructor]|]. destruct (H x (or_introl eq_refl)) as (y & E & Q). destruct IH as (m & Em & F); [intros; apply H; right; auto|]. exists (y :: m). cbn [map_res]. rewrite E. cbn [bind]. rewrite Em. split; [reflexivity|constructor; auto].
Qed.
Lemma map_res_same {A} (f : A -> res A) l : (forall x, In x l -> f x = Ok x) -> map_res f l = Ok l.
Proof. induction l as [|x l IH]; intros H; [reflexivity|]. cbn [map_res]. rewrite (H x (or_introl eq_refl)). cbn [bind]. rewrite IH; [reflexivity|]. intros; apply H; right; auto. Qed.
Lemma map_same {A} (f : A -> A) l : (forall x, In x l -> f x = x) -> map f l = l.
Proof. intros H. rewrite <- (map_id l) at 2. apply map_ext_in. exact H. Qed.
Lemma filter_zero {A} (p : A -> bool) l : length (filter p l) = 0 -> forall x, In x l -> p x = false.
Proof. intros H x Hx. destruct (p x) eqn:E; [|reflexivity]. assert (K : In x (filter p l)) by (apply filter_In; auto). destruct (filter p l); [destruct K|discriminate]. Qed.
(** at most one: whether there is one or none, all are converted *)
Lemma hybrid_all c : clear std_time unit_to c ->
  hybrid_in_metres unit_to c = bind (map_res (metres_dim unit_to) (q_dims c)) (fun ks => bind (map_res (metres_aux unit_to) (q_aux c)) (fun xs => Ok (mkGcube (q_var c) (q_std c) (q_long c) (q_units c) (q_shape c) ks (q_at c) xs (q_atts c)))).
Proof.
  intros (M & _). apply (one_count _ (on_coord hybrid_dim hybrid_aux)) in M; [|apply height_iff]. rewrite filter_coords in M by reflexivity. unfold hybrid_in_metres, only_one. destruct (_ =? 1) eqn:E; [reflexivity|]. apply Nat.eqb_neq in E.
  rewrite map_res_same, map_res_same; [destruct c; reflexivity| |].
  - intros a Ha. unfold metres_aux. rewrite (filter_zero hybrid_aux (q_aux c)); [reflexivity|lia|exact Ha].
  - intros k Hk. unfold metres_dim. rewrite (filter_zero hybrid_dim (q_dims c)); [destruct k; reflexivity|lia|exact Hk].
Qed.
Lemma t_all c : length (filter t_dim (q_dims c)) + length (filter t_aux (q_aux c)) <= 1 ->
  t_is_time c = mkGcube (q_var c) (q_std c) (q_long c) (q_units c) (q_shape c) (map time_dim_of (q_dims c)) (q_at c) (map time_aux_of (q_aux c)) (q_atts c).
Proof.
  intros M. unfold t_is_time, only_one. destruct (_ =? 1) eqn:E; [reflexivity|]. apply Nat.eqb_neq in E. rewrite map_same, map_same; [destruct c; reflexivity| |].
  - intros a Ha. unfold time_aux_of. rewrite (filter_zero t_aux (q_aux c)); [reflexivity|lia|exact Ha].
  - intros k Hk. unfold time_dim_of. rewrite (filter_zero t_dim (q_dims c)); [destruct k; reflexivity|lia|exact Hk].
Qed.
Lemma filter_le {A} (p q : A -> bool) l : (forall x, In x l -> p x = true -> q x = true) -> length (filter p l) <= length (filter q l).
Proof. induction l as [|x l IH]; intros H; [cbn; lia|]. cbn [filter]. specialize (IH (fun y Hy => H y (or_intror Hy))). destruct (p x) eqn:E; [rewrite (H x (or_introl eq_refl) E); cbn; lia|]. destruct (q x); cbn; lia. Qed.
Lemma filter_F2 {A B} (R : A -> B -> Prop) (p : A -> bool) (q : B -> bool) l m : Forall2 R l m -> (forall x y, R x y -> q y = p x) -> length (filter q m) = length (filter p l).
Proof. intros F H. induction F as [|x y l m Hxy F IH]; [reflexivity|]. cbn [filter]. rewrite (H x y Hxy). destruct (p x); cbn [length]; rewrite IH; reflexivity. Qed.
Lemma F2_map_r {A B C} (R : A -> C -> Prop) (f : B -> C) l m : Forall2 (fun a b => R a (f b)) l m -> Forall2 R l (map f m).
Proof. induction 1; cbn; constructor; auto. Qed.
Lemma F2_weaken {A B} (R1 R2 : A -> B -> Prop) l m : (forall a b, R1 a b -> R2 a b) -> Forall2 R1 l m -> Forall2 R2 l m.
Proof. intros H. induction 1; constructor; auto. Qed.
Lemma F2_in_r {A B} (P : A -> B -> Prop) l m : Forall2 P l m -> forall y, In y m -> exists x, In x l /\ P x y.
Proof. induction 1 as [|x y l m H F IH]; intros z Hz; [destruct Hz|]. destruct Hz as [<-|Hz]; [exists x; split; [left; reflexivity|exact H]|]. destruct (IH z Hz) as (w & A1 & A2). exists w. split; [right; exact A1|exact A2]. Qed.
(** the cube before heights and pressures are added *)
Lemma edited c : clear std_time unit_to c -> exists e, bind (hybrid_in_metres unit_to c) (fun c => Ok (t_is_time c)) = Ok e /\ q_var e = q_var c /\ q_std e = q_std c /\ q_long e = q_long c /\ q_units e = q_units c /\ q_shape e = q_shape c /\ q_at e = q_at c /\ q_atts e = q_atts c /\
  Forall2 edim (q_dims c) (q_dims e) /\ Forall2 eaux (q_aux c) (q_aux e).
Proof.
  intros CL. rewrite (hybrid_all c CL).
  destruct (map_res_all (metres_dim unit_to) (fun k k1 => edim k (time_dim_of k1) /\ t_dim k1 = t_dim k) (q_dims c)) as (ks & Ek & Fk); [intros k Hk; apply (edim_of c); auto|].
  destruct (map_res_all (metres_aux unit_to) (fun a a1 => eaux a (time_aux_of a1) /\ t_aux a1 = t_aux a) (q_aux c)) as (xs & Ex & Fx); [intros a Ha; apply (eaux_of c); auto|].
  rewrite Ek. cbn [bind]. rewrite Ex. cbn [bind]. eexists. split; [reflexivity|]. rewrite t_all.
  - cbn [q_var q_std q_long q_units q_shape q_at q_atts q_dims q_aux]. do 7 (split; [reflexivity|]). split; apply F2_map_r; [eapply F2_weaken; [|exact Fk]|eapply F2_weaken; [|exact Fx]]; intros ? ? [H _]; exact H.
  - cbn [q_dims q_aux]. rewrite (filter_F2 _ t_dim t_dim _ _ Fk) by (intros x y [_ H]; exact H). rewrite (filter_F2 _ t_aux t_aux _ _ Fx) by (intros x y [_ H]; exact H).
    destruct CL as (_ & M & _). apply (one_count _ (on_coord timely_dim timely_aux)) in M; [|apply timely_iff]. rewrite filter_coords in M by reflexivity.
    pose proof (filter_le t_dim timely_dim (q_dims c)) as L1. pose proof (filter_le t_aux timely_aux (q_aux c)) as L2.
    assert (K1 : length (filter t_dim (q_dims c)) <= length (filter timely_dim (q_dims c))). { apply L1. intros [d|] _ H; [|discriminate]. cbn [t_dim timely_dim] in *. unfold timelyb. rewrite H. reflexivity. }
    assert (K2 : length (filter t_aux (q_aux c)) <= length (filter timely_aux (q_aux c))). { apply L2. intros a _ H. unfold timely_aux, timelyb, t_aux in *. rewrite H. reflexivity. }
    lia.
Qed.
(** times *)
Lemma edim_time k k' : edim k k' -> is_time_dim k' = timely_dim k.
Proof.
  intros [|d f H N F|d T|d H N]; [reflexivity| | |]; cbn [is_time_dim timely_dim k_std].
  - destruct (timelyb _ _) eqn:E; [apply timelyb_iff in E; contradiction|]. apply is_not. intros K. apply N. right. exact K.
  - rewrite (proj2 (timelyb_iff _ _) T). apply is_iff. reflexivity.
  - destruct (timelyb _ _) eqn:E; [apply timelyb_iff in E; contradiction|]. apply is_not. intros K. apply N. right. exact K.
Qed.
Lemma eaux_time a a' : eaux a a' -> is (x_std a') (lit "time") = timely_aux a.
Proof.
  intros [a0 f H N F|a0 T|a0 H N]; cbn [x_std]; unfold timely_aux.
  - destruct (timelyb _ _) eqn:E; [apply timelyb_iff in E; contradiction|]. apply is_not. intros K. apply N. right. exact K.
  - rewrite (proj2 (timelyb_iff _ _) T). apply is_iff. reflexivity.
  - destruct (timelyb _ _) eqn:E; [apply timelyb_iff in E; contradiction|]. apply is_not. intros K. apply N. right. exact K.
Qed.
Lemma edim_read k k' k'' : edim k k' -> in_standard_time std_time k' k'' -> dim_read std_time unit_to k k''.
Proof.
  intros E T. inversion E as [|d f H N F|d TT|d H N]; subst.
  - inversion T; subst. constructor.
  - inversion T as [d0 d' S1 S2 S3 S4 S5 S6|k0 NT]; subst; [exfalso; apply N; right; exact S1|]. eapply dim_height; eauto.
  - inversion T as [d0 d' S1 S2 S3 S4 S5 S6|k0 NT]; subst; [apply dim_time; auto|]. exfalso. apply NT. eexists. split; reflexivity.
  - inversion T as [d0 d' S1 S2 S3 S4 S5 S6|k0 NT]; subst; [exfalso; apply N; right; exact S1|]. apply dim_other; auto.
Qed.
Lemma eaux_read a a' : eaux a a' -> aux_read unit_to a a'.
Proof.
  intros [a0 f H N F|a0 T|a0 H N]; [eapply aux_height; eauto; reflexivity|apply aux_time; auto; reflexivity|apply aux_other; auto].
Qed.
Lemma time_step c l : convertible std_time c -> (forall a, one_time_aux c a -> x_dims a = []) -> (forall a, In a l -> ~ time_aux a) ->
  exists r, match convert_cube_time_coord std_time (with_aux c l) with Raises CoordinateNotFoundError => Ok (with_aux c l) | r => r end = Ok r /\ same_variable c r /\ times_read std_time c r /\ q_aux r = q_aux c ++ l.
Proof.
  intros CV TA NT. unfold convert_cube_time_coord. cbn [with_aux q_dims q_aux].
  assert (FA : filter (fun a => is (x_std a) (lit "time")) (q_aux c ++ l) = filter (fun a => is (x_std a) (lit "time")) (q_aux c)).
  { rewrite filter_app, (proj2 (filter_none _ l)); [apply app_nil_r|]. apply Forall_forall. intros a Ha. apply is_not. apply NT. exact Ha. }
  rewrite FA. pose proof (one_time_dim_iff c) as OD. pose proof (one_time_aux_iff c) as OA.
  assert (Keep : ~ one_time_dim c -> exists r, Ok (with_aux c l) = Ok r /\ same_variable c r /\ times_read std_time c r /\ q_aux r = q_aux c ++ l).
  { intros N. eexists. split; [reflexivity|]. split; [repeat split|]. split; [right; split; [exact N|reflexivity]|]. reflexivity. }
  destruct (filter is_time_dim (q_dims c)) as [|k [|k2 kl]] eqn:FD; destruct (filter _ (q_aux c)) as [|a [|a2 al]] eqn:FX; try (apply Keep; intros N; apply OD in N; destruct N as [(? & N) ?]; congruence).
  - assert (T : one_time_aux c a) by (apply OA; auto). rewrite (TA a T). apply Keep. intros N; apply OD in N; destruct N as [(? & N) ?]; congruence.
  - destruct (convert_dims_ok std_time (q_dims c) CV) as (ks' & Ek & Fk). rewrite Ek. cbn [bind]. eexists. split; [reflexivity|]. split; [repeat split|]. split; [left; split; [apply OD; split; [exists k; reflexivity|reflexivity]|exact Fk]|]. reflexivity.
Qed.
(** heights and pressures depend on the shape only *)
Lemma cell_ext c e i : q_shape e = q_shape c -> cell c i -> cell e i.
Proof. unfold cell. intros ->. auto. Qed.
Lemma fits_ext g c e : q_shape e = q_shape c -> fits g e <-> fits g c.
Proof. unfold fits. intros ->. reflexivity. Qed.
Lemma usable_ext raw n c e : q_shape e = q_shape c -> usable together raw n e <-> usable together raw n c.
Proof. intros H. unfold usable. split; intros (g & A & B); exists g; (split; [exact A|]); apply (fits_ext g _ _ H); exact B. Qed.
Lemma gives_ext g std units f a c e : q_shape e = q_shape c -> gives e g std units f a -> gives c g std units f a.
Proof. intros H (A & B & C). split; [exact A|]. split; [exact B|]. intros i Hi. apply C. eapply cell_ext; eauto. Qed.
Lemma heights_ext raw c e h : q_shape e = q_shape c -> heights together raw e h -> heights together raw c h.
Proof.
  intros H [g a S1 F G|g a N S1 F G|N1 N2].
  - eapply from_potential; [exact S1|apply (fits_ext g _ _ H); exact F|eapply gives_ext; eauto].
  - eapply from_height; [intros U; apply N; apply (usable_ext _ _ _ _ H); exact U|exact S1|apply (fits_ext g _ _ H); exact F|eapply gives_ext; eauto].
  - apply no_heights; intros U; [apply N1|apply N2]; apply (usable_ext _ _ _ _ H); exact U.
Qed.
Lemma pressures_ext raw c e h : q_shape e = q_shape c -> pressures together raw e h -> pressures together raw c h.
Proof.
  intros H [g a S1 F G|N].
  - eapply from_pressure; [exact S1|apply (fits_ext g _ _ H); exact F|eapply gives_ext; eauto].
  - apply no_pressures; intros U; apply N; apply (usable_ext _ _ _ _ H); exact U.
Qed.
Lemma plain_ext c e : Forall2 edim (q_dims c) (q_dims e) -> Forall2 eaux (q_aux c) (q_aux e) -> plain_cube c -> plain_cube e.
Proof.
  intros FD FX [A B]. split.
  - intros a Ha. destruct (F2_in_r _ _ _ FX a Ha) as (b & Hb & E). specialize (A b Hb). destruct E; exact A.
  - intros k Hk. destruct (F2_in_r _ _ _ FD _ Hk) as (b & Hb & E). inversion E; subst; cbn [k_var]; apply (B _ Hb).
Qed.
Lemma convsh_edited raw c e : clear std_time unit_to c -> plain_cube c -> no_overhang together raw c ->
  q_var e = q_var c -> q_std e = q_std c -> q_long e = q_long c -> q_units e = q_units c -> q_shape e = q_shape c -> q_at e = q_at c -> q_atts e = q_atts c -> Forall2 edim (q_dims c) (q_dims e) -> Forall2 eaux (q_aux c) (q_aux e) ->
  exists r, bind (add_available_aux_coords together raw e) (fun c => match convert_cube_time_coord std_time c with Raises CoordinateNotFoundError => Ok c | r => r end) = Ok r /\ same_variable c r /\ Forall2 (dim_read std_time unit_to) (q_dims c) (q_dims r) /\
  exists x h p, q_aux r = x ++ h ++ p /\ Forall2 (aux_read unit_to) (q_aux c) x /\ heights together raw c h /\ pressures together raw c p.
Proof.
  intros CL PC NO V1 V2 V3 V4 V5 V6 V7 FD FX. destruct (aux_added together raw e) as (h & p & E & H & P & NT); [eapply plain_ext; eauto|intros n g Hn S1 (a & b & O); apply (NO n g Hn S1); exists a, b; rewrite V5 in O; exact O|].
  rewrite E. cbn [bind].
  destruct CL as (_ & M & _ & _ & CT & TA). apply (one_count _ (on_coord timely_dim timely_aux)) in M; [|apply timely_iff]. rewrite filter_coords in M by reflexivity.
  pose proof (filter_F2 _ timely_dim is_time_dim _ _ FD edim_time) as CD. pose proof (filter_F2 _ timely_aux (fun a => is (x_std a) (lit "time")) _ _ FX eaux_time) as CX.
  destruct (time_step e (h ++ p)) as (r & Er & SV & TR & Ax).
  - intros k Hk T x Hx. destruct (F2_in_r _ _ _ FD _ Hk) as (k0 & Hk0 & E0). inversion E0 as [|d f H0 N0 F0|d T0|d H0 N0]; subst; cbn [k_std k_units k_points] in *; [exfalso; apply N0; right; exact T| |exfalso; apply N0; right; exact T]. apply (CT d); [apply in_dims; exact Hk0|exact T0|exact Hx].
  - intros a Ha. destruct Ha as (_ & pre & post & Ea & Ta & _). assert (In a (q_aux e)) as Ha by (rewrite Ea; apply in_or_app; right; left; reflexivity). destruct (F2_in_r _ _ _ FX _ Ha) as (b & Hb & E0).
    inversion E0 as [a0 f H0 N0 F0|a0 T0|a0 H0 N0]; subst; unfold time_aux in Ta; cbn [x_std x_dims] in *; [exfalso; apply N0; right; exact Ta| |exfalso; apply N0; right; exact Ta]. apply TA; [apply in_aux; exact Hb|exact T0].
  - exact NT.
  - exists r. split; [exact Er|]. split; [destruct SV as (W1 & W2 & W3 & W4 & W5 & W6 & W7); repeat split; congruence|]. split.
    + destruct TR as [[OT F]|[NOT Eq]].
      * clear - FD F. revert F. generalize (q_dims r). induction FD as [|k k' l l' E FD IH]; intros m F; inversion F; subst; constructor; [eapply edim_read; eauto|auto].
      * rewrite Eq. assert (Z : length (filter timely_dim (q_dims c)) = 0). { destruct (length (filter timely_dim (q_dims c))) as [|n] eqn:EN; [reflexivity|]. exfalso. apply NOT. apply one_time_dim_iff. split.
          - destruct (filter is_time_dim (q_dims e)) as [|k [|k2 l]]; cbn in CD; [lia|exists k; reflexivity|lia].
          - destruct (filter _ (q_aux e)); [reflexivity|]. cbn in CX. lia. }
        pose proof (filter_zero _ _ Z) as Z'. clear - FD Z'. induction FD as [|k k' l l' E FD IH]; [constructor|]. constructor; [|apply IH; intros; apply Z'; right; auto].
        specialize (Z' k (or_introl eq_refl)). eapply edim_read; [exact E|]. apply another. intros T. apply is_time_dim_iff in T. rewrite (edim_time _ _ E) in T. congruence.
    + exists (q_aux e), h, p. split; [exact Ax|]. split; [eapply F2_weaken; [|exact FX]; apply eaux_read|]. split; [eapply heights_ext; eauto|eapply pressures_ext; eauto].
Qed.
Lemma convsh_read several raw : Forall well_shaped raw -> (several = true -> Forall (fun c => has_attribute c "history") raw) ->
  exists cs, (several = true -> Forall2 stripped raw cs) /\ (several = false -> cs = raw) /\
  (forall v, no_cube together cs (has_name v) -> convsh together std_time unit_to several raw (Some v) = Raises InvalidVariableError) /\
  forall v c, one_cube together cs (has_name v) c -> clear std_time unit_to c -> plain_cube c -> no_overhang together raw c ->
  exists r, convsh together std_time unit_to several raw (Some v) = Ok r /\ same_variable c r /\ Forall2 (dim_read std_time unit_to) (q_dims c) (q_dims r) /\
  exists x h p, q_aux r = x ++ h ++ p /\ Forall2 (aux_read unit_to) (q_aux c) x /\ heights together raw c h /\ pressures together raw c p.
Proof.
  intros W H. assert (CS : exists cs, map_res (if several then convsh_several else fun c => Ok c) raw = Ok cs /\ (several = true -> Forall2 stripped raw cs) /\ (several = false -> cs = raw)).
  { destruct several; [destruct (map_several_ok raw W (H eq_refl)) as (cs & E & F); exists cs; split; [exact E|split; [auto|discriminate]]|exists raw; split; [apply map_res_same; auto|split; [discriminate|auto]]]. }
  destruct CS as (cs & E & C1 & C2). exists cs. split; [exact C1|]. split; [exact C2|]. unfold convsh, create_data_object_by, create_cube_by. rewrite E. cbn [bind]. split.
  - intros v O. apply (load_none together _ (named_cube v)) in O; [|intros; apply named_cube_iff]. rewrite O. reflexivity.
  - intros v c O CL PC NO. apply (load_one together _ (named_cube v)) in O; [|intros; apply named_cube_iff]. rewrite O.
    destruct (edited c CL) as (e & Ee & V1 & V2 & V3 & V4 & V5 & V6 & V7 & FD & FX). rewrite Ee. cbn [bind]. apply (convsh_edited raw c e); auto.
Qed.
Lemma map_res_error {A B} (f : A -> res B) (e : exn) l : (forall x e', In x l -> f x = Raises e' -> e' = e) -> (exists m, map_res f l = Ok m) \/ map_res f l = Raises e.
Proof.
  induction l as [|x l IH]; intros H; cbn [map_res]; [eauto|]. destruct (f x) as [y|e'] eqn:E; cbn [bind]; [|right; f_equal; eapply H; [left; reflexivity|exact E]]. destruct IH as [(m & ->)| ->]; [intros; eapply H; [right|]; eauto| |]; cbn [bind]; eauto.
Qed.
Lemma map_res_hit {A B} (f : A -> res B) (e : exn) l x : (forall x e', In x l -> f x = Raises e' -> e' = e) -> In x l -> f x = Raises e -> map_res f l = Raises e.
Proof.
  intros H Hx E. destruct (map_res_error f e l H) as [(m & M)|M]; [|exact M]. exfalso. clear H. revert m M. induction l as [|y l IH]; intros m M; [destruct Hx|]. cbn [map_res] in M. destruct Hx as [->|Hx]; [rewrite E in M; discriminate|]. destruct (f y); [|discriminate]. cbn [bind] in M. destruct (map_res f l) as [m'|] eqn:E'; [|discriminate]. eapply IH; eauto.
Qed.
Lemma heights_refused c x : at_most_one height (coordinates c) -> In x (coordinates c) -> height x -> unit_to (units_of x) (lit "m") = None -> hybrid_in_metres unit_to c = Raises ValueError.
Proof.
  intros M Hx HX N. apply (one_count _ (on_coord hybrid_dim hybrid_aux)) in M; [|apply height_iff]. assert (P : In x (filter (on_coord hybrid_dim hybrid_aux) (coordinates c))) by (apply filter_In; split; [exact Hx|apply height_iff; exact HX]).
  unfold hybrid_in_metres, only_one. rewrite filter_coords in M by reflexivity. assert (L1 : length (filter (on_coord hybrid_dim hybrid_aux) (coordinates c)) <> 0) by (intros Z; apply length_zero_iff_nil in Z; rewrite Z in P; destruct P). rewrite filter_coords in L1 by reflexivity.
  destruct (Nat.eqb_spec (length (filter hybrid_dim (q_dims c)) + length (filter hybrid_aux (q_aux c))) 1) as [E|E]; [|lia].
  assert (ED : forall k e, In k (q_dims c) -> metres_dim unit_to k = Raises e -> e = ValueError) by (intros [d|] e _; unfold metres_dim; [|discriminate]; destruct (hybrid_dim _); [|discriminate]; destruct (unit_to (k_units d) (lit "m")); [discriminate|]; intros X; injection X; auto).
  assert (EX : forall a e, In a (q_aux c) -> metres_aux unit_to a = Raises e -> e = ValueError) by (intros a e _; unfold metres_aux; destruct (hybrid_aux _); [|discriminate]; destruct (unit_to (x_units a) (lit "m")); [discriminate|]; intros X; injection X; auto).
  apply height_iff in HX. unfold coordinates in Hx. apply in_app_or in Hx. destruct Hx as [Hx|Hx].
  - apply in_flat_map in Hx. destruct Hx as (k & Hk & Hx). destruct k as [d|]; [|destruct Hx]. destruct Hx as [<-|[]]. cbn [on_coord units_of] in *. rewrite (map_res_hit _ ValueError (q_dims c) (Some d) ED Hk); [reflexivity|]. unfold metres_dim. rewrite HX, N. reflexivity.
  - apply in_map_iff in Hx. destruct Hx as (a & <- & Ha). cbn [on_coord units_of] in *. destruct (map_res_error _ ValueError (q_dims c) ED) as [(m & ->)| ->]; [|reflexivity]. cbn [bind]. rewrite (map_res_hit _ ValueError (q_aux c) a EX Ha); [reflexivity|]. unfold metres_aux. rewrite HX, N. reflexivity.
Qed.
Lemma convsh_units several raw : Forall well_shaped raw -> (several = true -> Forall (fun c => has_attribute c "history") raw) ->
  exists cs, (several = true -> Forall2 stripped raw cs) /\ (several = false -> cs = raw) /\
  forall v c x, one_cube together cs (has_name v) c -> at_most_one height (coordinates c) -> In x (coordinates c) -> height x -> unit_to (units_of x) (lit "m") = None -> convsh together std_time unit_to several raw (Some v) = Raises ValueError.
Proof.
  intros W H. assert (CS : exists cs, map_res (if several then convsh_several else fun c => Ok c) raw = Ok cs /\ (several = true -> Forall2 stripped raw cs) /\ (several = false -> cs = raw)).
  { destruct several; [destruct (map_several_ok raw W (H eq_refl)) as (cs & E & F); exists cs; split; [exact E|split; [auto|discriminate]]|exists raw; split; [apply map_res_same; auto|split; [discriminate|auto]]]. }
  destruct CS as (cs & E & C1 & C2). exists cs. split; [exact C1|]. split; [exact C2|]. intros v c x O M Hx HX N. unfold convsh, create_data_object_by, create_cube_by. rewrite E. cbn [bind].
  apply (load_one together _ (named_cube v)) in O; [|intros; apply named_cube_iff]. rewrite O, (heights_refused c x M Hx HX N). reflexivity.
Qed.
Lemma convsh_no_history raw v c : In c raw -> ~ has_attribute c "history" -> convsh together std_time unit_to true raw v = Raises KeyError.
Proof. intros Hc N. unfold convsh, create_data_object_by, create_cube_by. rewrite (map_several_missing raw c Hc N). reflexivity. Qed.
Lemma map_res_pure {A B} (f : A -> B) l : map_res (fun x => Ok (f x)) l = Ok (map f l).
Proof. induction l as [|x l IH]; [reflexivity|]. cbn [map_res map]. rewrite IH. reflexivity. Qed.
Lemma pp_read several raw : exists cs, Forall2 (pp_cube several) raw cs /\
  (forall v, no_cube together cs (has_name v) -> pp together std_time several raw (Some v) = Raises InvalidVariableError) /\
  forall v c, one_cube together cs (has_name v) c -> plain_cube c -> no_overhang together raw c -> convertible std_time c -> (forall a, one_time_aux c a -> x_dims a = []) ->
  exists r, pp together std_time several raw (Some v) = Ok r /\ same_variable c r /\ times_read std_time c r /\ exists h p, q_aux r = q_aux c ++ h ++ p /\ heights together raw c h /\ pressures together raw c p.
Proof.
  exists (map (fun c => if several then pp_several c else pp_single c) raw). split; [induction raw as [|c raw IH]; constructor; [apply pp_ok|exact IH]|].
  unfold pp, create_data_object_by, create_cube_by. rewrite (map_res_pure (fun c => if several then pp_several c else pp_single c)). cbn [bind]. split.
  - intros v O. apply (load_none together _ (named_cube v)) in O; [|intros; apply named_cube_iff]. rewrite O. reflexivity.
  - intros v c O PC NO CV TA. apply (load_one together _ (named_cube v)) in O; [|intros; apply named_cube_iff]. rewrite O. cbn [bind].
    destruct (aux_added together raw c PC NO) as (h & p & E & H & P & NT). rewrite E. cbn [bind]. destruct (time_step c (h ++ p) CV TA NT) as (r & Er & SV & TR & Ax). exists r. split; [exact Er|]. split; [exact SV|]. split; [exact TR|]. exists h, p. auto.
Qed.
End Had.
