(** Proofs for C94. *)
From Coq Require Import String.
From Verif Require Import Base PyStr QBase DistModel ProdModel RafModel HdfModel UngrProofs MtModel MtSpec.
From Coq Require Import List Lia Lqa.
Import ListNotations.
Open Scope string_scope. Open Scope list_scope. Open Scope nat_scope. Notation length := List.length.

(** ** names *)
Theorem set_name V m s : 
  (allowed V s -> exists m', set_standard_name V m s = (m', None) /\ m_std m' = s /\ same_but_std m m') /\ (~ allowed V s -> set_standard_name V m s = (m, Some ValueError)).
Proof.
  unfold set_standard_name, allowed, same_but_std. destruct s as [n|].
  - destruct (V n) eqn:E; split; intros H.
    + eexists. split; [reflexivity|]. cbn. repeat split; reflexivity.
    + exfalso. apply H. right. eauto.
    + exfalso. destruct H as [H|(k & [= <-] & H)]; congruence.
    + reflexivity.
  - split; intros H; [eexists; split; [reflexivity|]; cbn; repeat split; reflexivity|]. exfalso. apply H. auto.
Qed.
Theorem set_if_valid V m s : same_but_std m (set_standard_name_if_valid V m s) /\ (allowed V s -> m_std (set_standard_name_if_valid V m s) = s) /\ (~ allowed V s -> m_std (set_standard_name_if_valid V m s) = None).
Proof.
  unfold set_standard_name_if_valid, set_standard_name, same_but_std, allowed. destruct s as [n|].
  - destruct (V n) eqn:E; cbn; (split; [repeat split; reflexivity|]); split; intros H; auto.
    + exfalso. apply H. right. eauto.
    + destruct H as [H|(k & [= <-] & H)]; congruence.
  - cbn. split; [repeat split; reflexivity|]. auto.
Qed.
Lemma starts_with_iff p : forall s, starts_with p s = true <-> exists r, s = p ++ r.
Proof.
  induction p as [|a p IH]; intros s; [split; [exists s; reflexivity|destruct s; reflexivity]|]. destruct s as [|b s]; cbn [starts_with app].
  - split; [discriminate|intros (r & H); discriminate].
  - destruct (ascii_dec a b) as [->|N]; [rewrite IH; split; intros (r & H); exists r; congruence|]. split; [discriminate|intros (r & H); congruence].
Qed.
Lemma str_eqb_iff a b : str_eqb a b = true <-> a = b.
Proof. unfold str_eqb. destruct (str_eq_dec a b); split; congruence. Qed.
Lemma guess_suggests name s : suggests name s <-> s = guess_standard_name name.
Proof.
  assert (D : forall r, fits name r \/ ~ fits name r).
  { intros [p q|p q]; cbn; [rewrite <- (starts_with_iff p); destruct (starts_with p (lower name)); auto|]. destruct (str_eq_dec (lower name) p); auto. }
  assert (G : suggests name (guess_standard_name name)).
  { unfold guess_standard_name. cbv zeta.
    destruct (starts_with (lit "lat") (lower name)) eqn:E1. { left. exists [], (Begins (lit "lat") (lit "latitude")). eexists. split; [reflexivity|]. split; [apply starts_with_iff; exact E1|]. split; [constructor|reflexivity]. }
    assert (N1 : ~ fits name (Begins (lit "lat") (lit "latitude"))) by (cbn [fits]; rewrite <- starts_with_iff; congruence).
    destruct (starts_with (lit "lon") (lower name)) eqn:E2. { left. exists [Begins (lit "lat") (lit "latitude")], (Begins (lit "lon") (lit "longitude")). eexists. split; [reflexivity|]. split; [apply starts_with_iff; exact E2|]. split; [repeat constructor; auto|reflexivity]. }
    assert (N2 : ~ fits name (Begins (lit "lon") (lit "longitude"))) by (cbn [fits]; rewrite <- starts_with_iff; congruence).
    destruct (starts_with (lit "alt") (lower name)) eqn:E3. { left. exists [Begins (lit "lat") (lit "latitude"); Begins (lit "lon") (lit "longitude")], (Begins (lit "alt") (lit "altitude")). eexists. split; [reflexivity|]. split; [apply starts_with_iff; exact E3|]. split; [repeat (constructor; auto)|reflexivity]. }
    assert (N3 : ~ fits name (Begins (lit "alt") (lit "altitude"))) by (cbn [fits]; rewrite <- starts_with_iff; congruence).
    destruct (str_eqb (lower name) (lit "height")) eqn:E4. { cbn [orb]. left. exists [Begins (lit "lat") (lit "latitude"); Begins (lit "lon") (lit "longitude"); Begins (lit "alt") (lit "altitude")], (Is (lit "height") (lit "altitude")). eexists. split; [reflexivity|]. split; [apply str_eqb_iff; exact E4|]. split; [repeat (constructor; auto)|reflexivity]. }
    assert (N4 : ~ fits name (Is (lit "height") (lit "altitude"))) by (cbn [fits]; rewrite <- str_eqb_iff; congruence). cbn [orb].
    destruct (starts_with (lit "pres") (lower name)) eqn:E5. { cbn [orb]. left. exists [Begins (lit "lat") (lit "latitude"); Begins (lit "lon") (lit "longitude"); Begins (lit "alt") (lit "altitude"); Is (lit "height") (lit "altitude")], (Begins (lit "pres") (lit "air_pressure")). eexists. split; [reflexivity|]. split; [apply starts_with_iff; exact E5|]. split; [repeat (constructor; auto)|reflexivity]. }
    assert (N5 : ~ fits name (Begins (lit "pres") (lit "air_pressure"))) by (cbn [fits]; rewrite <- starts_with_iff; congruence).
    destruct (str_eqb (lower name) (lit "air_pressure")) eqn:E6. { cbn [orb]. left. exists [Begins (lit "lat") (lit "latitude"); Begins (lit "lon") (lit "longitude"); Begins (lit "alt") (lit "altitude"); Is (lit "height") (lit "altitude"); Begins (lit "pres") (lit "air_pressure")], (Is (lit "air_pressure") (lit "air_pressure")). eexists. split; [reflexivity|]. split; [apply str_eqb_iff; exact E6|]. split; [repeat (constructor; auto)|reflexivity]. }
    assert (N6 : ~ fits name (Is (lit "air_pressure") (lit "air_pressure"))) by (cbn [fits]; rewrite <- str_eqb_iff; congruence). cbn [orb].
    destruct (str_eqb (lower name) (lit "time")) eqn:E7. { left. exists [Begins (lit "lat") (lit "latitude"); Begins (lit "lon") (lit "longitude"); Begins (lit "alt") (lit "altitude"); Is (lit "height") (lit "altitude"); Begins (lit "pres") (lit "air_pressure"); Is (lit "air_pressure") (lit "air_pressure")], (Is (lit "time") (lit "time")). eexists. split; [reflexivity|]. split; [apply str_eqb_iff; exact E7|]. split; [repeat (constructor; auto)|reflexivity]. }
    assert (N7 : ~ fits name (Is (lit "time") (lit "time"))) by (cbn [fits]; rewrite <- str_eqb_iff; congruence).
    right. split; [|reflexivity]. unfold rules. repeat (constructor; [assumption|]). constructor. }
  split; [|intros ->; exact G]. generalize (guess_standard_name name) G. clear G. intros g G H.
  assert (X : forall (l1 l2 : list rule) r1 r2 a1 a2, l1 ++ r1 :: a1 = l2 ++ r2 :: a2 -> Forall (fun r => ~ fits name r) l1 -> Forall (fun r => ~ fits name r) l2 -> fits name r1 -> fits name r2 -> r1 = r2).
  { induction l1 as [|x l1 IH]; intros [|y l2] r1 r2 a1 a2 E F1 F2 H1 H2; cbn in E; injection E as E1 E2; auto.
    - subst. inversion F2; subst. tauto. - subst. inversion F1; subst. tauto. - inversion F1; inversion F2; subst. eauto. }
  destruct H as [(b & r & a & E & F & N & ->)|(N & ->)], G as [(b' & r' & a' & E' & F' & N' & ->)|(N' & ->)]; auto.
  - f_equal. f_equal. rewrite E in E'. eapply X; eauto.
  - rewrite E in N'. apply Forall_app in N'. destruct N' as [_ N']. inversion N'; tauto.
  - rewrite E' in N. apply Forall_app in N. destruct N as [_ N]. inversion N; tauto.
Qed.
Lemma knows_guess V name : knows V -> match guess_standard_name name with None => true | Some s => V s end = true.
Proof.
  intros K. destruct (guess_standard_name name) as [g|] eqn:E; auto. assert (H : suggests name (Some g)) by (apply guess_suggests; auto). destruct H as [(b & r & a & E' & _ & _ & [= ->])|(_ & [=])]. apply K. rewrite E'. apply in_or_app. right. left. reflexivity.
Qed.
Theorem new_ok V U name std long u h : knows V ->
  (std <> [] -> V std = false -> new_metadata V U name std long u h = Raises ValueError) /\
  (std = [] \/ V std = true -> exists m, new_metadata V U name std long u h = Ok m /\ m_name m = name /\ m_long m = long /\ m_history m = h /\ m_units m = set_units U u /\ m_range m = NoRange /\ named V name std (m_std m)).
Proof.
  intros K. unfold new_metadata. split.
  - intros N E. destruct std as [|a std]; [congruence|]. unfold set_standard_name. rewrite E. reflexivity.
  - intros H. unfold named. destruct std as [|a std].
    + destruct name as [|b name].
      * cbn [bind]. eexists. split; [reflexivity|]. cbn. repeat (split; [reflexivity|]). right. right. auto.
      * unfold set_standard_name. rewrite (knows_guess V _ K). cbn [bind]. eexists. split; [reflexivity|]. cbn [m_name m_long m_history m_units m_range m_std]. repeat (split; [reflexivity|]). right. left. split; auto. split; [discriminate|]. apply guess_suggests. reflexivity.
    + destruct H as [H|H]; [discriminate|]. unfold set_standard_name. rewrite H. cbn [bind]. eexists. split; [reflexivity|]. cbn [m_name m_long m_history m_units m_range m_std]. repeat (split; [reflexivity|]). left. split; [discriminate|]. auto.
Qed.
Theorem netcdf_ok V U name std long u h : knows V -> exists m, netcdf_metadata V U name std long u h = Ok m /\ m_name m = name /\ m_long m = long /\ m_history m = h /\ m_units m = set_units U (UText u) /\
  m_std m = (if V std then Some std else None).
Proof.
  intros K. unfold netcdf_metadata. destruct (new_ok V U name [] long (UText u) h K) as [_ H]. destruct (H (or_introl eq_refl)) as (m & -> & A & B & C & D & E & F). cbn [bind]. eexists. split; [reflexivity|].
  destruct (set_if_valid V m (Some std)) as ((X1 & X2 & X3 & X4 & X5) & P & N). repeat (split; [congruence|]). destruct (V std) eqn:W; [apply P; right; eauto|apply N; intros [Q|(k & [= <-] & Q)]; congruence].
Qed.
Theorem guessed_wrongly V U long u h : knows V -> exists m, new_metadata V U (lit "latent_heat_flux") [] long u h = Ok m /\ m_std m = Some (lit "latitude").
Proof.
  intros K. destruct (new_ok V U (lit "latent_heat_flux") [] long u h K) as [_ H]. destruct (H (or_introl eq_refl)) as (m & E & _ & _ & _ & _ & _ & N). exists m. split; auto. destruct N as [(N & _)|[(_ & _ & N)|(_ & N & _)]]; [congruence| |discriminate].
  apply guess_suggests in N. rewrite N. reflexivity.
Qed.
Theorem first_name l default : let m := l_meta l in
  name_of l default = match filter (fun s => match s with [] => false | _ => true end) [match m_std m with Some s => s | None => [] end; m_long m; m_name m; default] with n :: _ => n | [] => [] end.
Proof. cbv zeta. unfold name_of. destruct (m_std (l_meta l)) as [[|a s]|]; cbn; auto; destruct (m_long (l_meta l)); cbn; auto; destruct (m_name (l_meta l)); cbn; auto; destruct default; auto. Qed.
