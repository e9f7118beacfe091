From Coq Require Import String.
From Verif Require Import Base PyStr FileListModel ProdModel ParseModel ParseSpec ParseProofs SubsetProofs HdfProofs LstModel LstSpec.
From Coq Require Import List Ascii Lia.
Import ListNotations.
Open Scope string_scope. Open Scope list_scope. Open Scope nat_scope. Notation length := List.length.

Fixpoint group_rec' (P : group -> Prop) (H : forall v s, Forall (fun kg : str * group => P (snd kg)) s -> P (Group v s)) (g : group) : P g :=
  match g with
  | Group v s => H v s ((fix go (s : list (str * group)) : Forall (fun kg : str * group => P (snd kg)) s :=
                          match s with [] => Forall_nil _ | kg :: r => Forall_cons kg (group_rec' P H (snd kg)) (go r) end) s)
  end.

(** the variables below a group, in the order of the code *)
Fixpoint entries (g : group) : list (list str * list str) :=
  match g with
  | Group vars subs => map (fun v => ([fst v], snd v)) vars ++
      (fix go (subs : list (str * group)) := match subs with [] => [] | (k, sub) :: rest => map (fun e => (k :: fst e, snd e)) (entries sub) ++ go rest end) subs
  end.
Definition lower_entries (subs : list (str * group)) : list (list str * list str) := flat_map (fun kg => map (fun e => (fst kg :: fst e, snd e)) (entries (snd kg))) subs.
Lemma entries_eq vars subs : entries (Group vars subs) = map (fun v => ([fst v], snd v)) vars ++ lower_entries subs.
Proof. cbn [entries]. f_equal. induction subs as [|[k s] rest IH]; [reflexivity|]. cbn [lower_entries flat_map fst snd]. f_equal. exact IH. Qed.
Definition put (prev : list str) (d : vdict) (e : list str * list str) : vdict := dict_set d (join_on "/" (prev ++ fst e)) (snd e).
Lemma fold_map {A B C} (f : C -> B -> C) (h : A -> B) l : forall d, fold_left f (map h l) d = fold_left (fun d a => f d (h a)) l d.
Proof. induction l; intros d; cbn; auto. Qed.
Lemma fold_ext {A C} (f g : C -> A -> C) l : (forall d a, f d a = g d a) -> forall d, fold_left f l d = fold_left g l d.
Proof. intros E. induction l; intros d; cbn; auto. rewrite E. auto. Qed.
Lemma group_fold g : forall prev d, get_variables_for_group g prev d = fold_left (put prev) (lower_entries (subs_of g)) d.
Proof.
  induction g as [v s IH] using group_rec'. intros prev d. cbn [get_variables_for_group subs_of]. revert d.
  induction IH as [|[k sub] rest H _ IH2]; intros d; [reflexivity|].
  cbn [lower_entries flat_map fst snd]. rewrite fold_left_app. rewrite IH2. cbn [fst snd] in *. unfold lower_entries. f_equal. rewrite H.
  rewrite fold_map. destruct sub as [vv ss]. rewrite entries_eq. rewrite fold_left_app. cbn [vars_of subs_of].
  assert (P : forall d (e : list str * list str), put prev d (k :: fst e, snd e) = put (prev ++ [k]) d e). { intros d0 e. unfold put. cbn [fst snd]. now rewrite <- app_assoc. }
  rewrite (fold_ext _ _ (lower_entries ss) P). f_equal. rewrite (fold_ext _ _ _ P). rewrite fold_map. reflexivity.
Qed.
Lemma full_join path name : full_name path name = join_on "/" (path ++ [name]).
Proof. induction path as [|k r IH]; [reflexivity|]. cbn [full_name app]. rewrite IH. destruct (r ++ [name]) eqn:E; [destruct r; discriminate|]. reflexivity. Qed.

Lemma located_entries g : forall p dims, In (p, dims) (entries g) <-> exists path name, located g path name dims /\ p = path ++ [name].
Proof.
  induction g as [v s IH] using group_rec'. intros p dims. rewrite entries_eq, in_app_iff, in_map_iff. unfold lower_entries. rewrite in_flat_map. rewrite Forall_forall in IH. split.
  - intros [([n d] & E & I)|([k sub] & I & J)].
    + cbn in E. injection E as <- <-. exists [], n. split; [now apply here|reflexivity].
    + rewrite in_map_iff in J. destruct J as ([q d] & E & J). cbn [fst snd] in *. injection E as <- <-. apply (IH _ I) in J. destruct J as (path & name & L & ->).
      exists (k :: path), name. split; [|reflexivity]. eapply below; eauto.
  - intros (path & name & L & ->). inversion L as [? ? ? ? I|? ? k sub rest ? ? I L']; subst.
    + left. exists (name, dims). split; [reflexivity|auto].
    + right. exists (k, sub). split; [auto|]. cbn [fst snd]. rewrite in_map_iff. exists (rest ++ [name], dims). split; [reflexivity|]. apply (IH _ I). eauto.
Qed.
Lemma located_plain g path name dims : located g path name dims -> lawful g -> forall p, In p (path ++ [name]) -> plain p.
Proof.
  induction 1 as [? ? ? ? I|? ? k sub rest ? ? I L IH]; intros W p J; inversion W as [? ? N P N2 P2 G]; subst.
  - destruct J as [<-|[]]. eauto.
  - destruct J as [<-|J]; [eauto|]. apply IH; auto. eapply G; eauto.
Qed.
Lemma nodup_cons_map {A} (k : A) (l : list (list A)) : NoDup l -> NoDup (map (cons k) l).
Proof. induction 1; cbn; constructor; auto. rewrite in_map_iff. intros (y & E & I). injection E as ->. auto. Qed.
Lemma nodup_app {A} (l m : list A) : NoDup l -> NoDup m -> (forall x, In x l -> ~ In x m) -> NoDup (l ++ m).
Proof. induction 1 as [|a l N D IH]; intros M X; cbn; auto. constructor. { rewrite in_app_iff. intros [|I]; auto. apply (X a); cbn; auto. } apply IH; auto. intros x I. apply X. now right. Qed.
Lemma entries_nonnil g p : In p (map fst (entries g)) -> p <> [].
Proof. rewrite in_map_iff. intros ([q d] & E & I). cbn in E. subst q. apply located_entries in I. destruct I as (path & name & _ & ->). destruct path; discriminate. Qed.
Lemma map_fst_cons (k : str) (l : list (list str * list str)) : map fst (map (fun e => (k :: fst e, snd e)) l) = map (cons k) (map fst l).
Proof. rewrite !map_map. reflexivity. Qed.
Lemma entries_nodup g : lawful g -> NoDup (map fst (entries g)).
Proof.
  induction g as [v s IH] using group_rec'. intros W. inversion W as [? ? N P N2 P2 G]; subst. rewrite entries_eq, map_app. apply nodup_app.
  - rewrite map_map. cbn [fst]. rewrite <- (map_map fst (fun n => [n])). clear -N. induction N as [|a l H N IH]; cbn; constructor; auto. rewrite in_map_iff. intros (y & E & I). injection E as ->. auto.
  - clear W N P P2. assert (G' : Forall (fun kg : str * group => lawful (snd kg)) s). { apply Forall_forall. intros [k g] I. eapply G; eauto. } clear G.
    induction s as [|[k sub] rest IH2]; [constructor|]. inversion IH; subst. inversion G'; subst. cbn in N2. inversion N2; subst. cbn [lower_entries flat_map fst snd] in *. rewrite map_app. apply nodup_app.
    + rewrite map_fst_cons. apply nodup_cons_map. auto.
    + apply IH2; auto.
    + intros p I J. rewrite map_fst_cons, in_map_iff in I. destruct I as (q & <- & I). rewrite in_map_iff in J. destruct J as ([q' d] & E & J). cbn in E. subst q'.
      rewrite in_flat_map in J. destruct J as ([k' sub'] & J & K). rewrite in_map_iff in K. destruct K as (e & E & _). cbn in E. injection E as -> _ _. apply H5. apply in_map_iff. exists (k, sub'). auto.
  - intros p I J. rewrite map_map in I. cbn [fst] in I. apply in_map_iff in I. destruct I as ([n d] & <- & _).
    rewrite in_map_iff in J. destruct J as ([q' d'] & E & J). cbn in E. subst q'. unfold lower_entries in J. rewrite in_flat_map in J. destruct J as ([k' sub'] & J & K). rewrite in_map_iff in K. destruct K as ([q d2] & E & K). cbn in E.
    injection E as -> E _. apply (entries_nonnil sub' q); auto. apply in_map_iff. exists (q, d2). auto.
Qed.
Lemma join_inj p q : p <> [] -> q <> [] -> (forall x, In x p -> plain x) -> (forall x, In x q -> plain x) -> join_on "/" p = join_on "/" q -> p = q.
Proof. intros P Q X Y E. apply (f_equal (split_on "/")) in E. rewrite !split_join in E; auto. Qed.

Lemma fold_put l : forall d, NoDup (map fst d ++ map (fun e : list str * list str => join_on "/" (fst e)) l) -> fold_left (put []) l d = d ++ map (fun e => (join_on "/" (fst e), snd e)) l.
Proof.
  induction l as [|e r IH]; intros d N; cbn [map]; [now rewrite app_nil_r|]. cbn [fold_left]. unfold put at 2. cbn [app]. rewrite dict_set_fresh.
  - rewrite IH. + now rewrite <- app_assoc. + rewrite map_app. cbn [map fst]. rewrite <- app_assoc. exact N.
  - cbn [map] in N. apply NoDup_remove_2 in N. intros I. apply N. rewrite in_app_iff. auto.
Qed.
Lemma all_variables_eq root : lawful root -> all_variables root = map (fun e => (join_on "/" (fst e), snd e)) (entries root).
Proof.
  intros W. unfold all_variables. rewrite group_fold. destruct root as [v s]. cbn [subs_of vars_of]. pose proof (entries_nodup _ W) as N.
  assert (M : NoDup (map (fun e : list str * list str => join_on "/" (fst e)) (entries (Group v s)))).
  { rewrite <- (map_map fst (join_on "/")). assert (A : forall p, In p (map fst (entries (Group v s))) -> p <> [] /\ forall x, In x p -> plain x).
    { intros p I. split; [eapply entries_nonnil; eauto|]. rewrite in_map_iff in I. destruct I as ([q d] & <- & I). apply located_entries in I. destruct I as (path & name & L & ->). intros x. cbn [fst]. eapply located_plain; eauto. }
    revert A. induction N as [|p l H N IH]; intros A; cbn [map]; constructor; [|apply IH; intros; apply A; now right].
    rewrite in_map_iff. intros (q & E & I). apply H. replace p with q; auto. apply join_inj; try (apply A; cbn; auto); auto. }
  rewrite entries_eq in *. rewrite map_app in *. rewrite fold_put.
  - rewrite map_map. cbn [fst snd]. f_equal. rewrite <- (map_id v) at 1. apply map_ext. intros [n d]. reflexivity.
  - rewrite map_map in M. cbn [fst] in M. exact M.
Qed.
Theorem groups_ok root : lawful root ->
  (forall n dims, In (n, dims) (all_variables root) <-> exists path name, located root path name dims /\ n = full_name path name) /\ NoDup (map fst (all_variables root)).
Proof.
  intros W. rewrite (all_variables_eq _ W). split.
  - intros n dims. rewrite in_map_iff. split.
    + intros ([p d] & E & I). cbn in E. injection E as <- <-. apply located_entries in I. destruct I as (path & name & L & ->). exists path, name. split; auto. now rewrite full_join.
    + intros (path & name & L & ->). exists (path ++ [name], dims). split; [now rewrite full_join|]. apply located_entries. eauto.
  - rewrite map_map. cbn [fst]. rewrite <- (map_map fst (join_on "/")). pose proof (entries_nodup _ W) as N.
    assert (A : forall p, In p (map fst (entries root)) -> p <> [] /\ forall x, In x p -> plain x).
    { intros p I. split; [eapply entries_nonnil; eauto|]. rewrite in_map_iff in I. destruct I as ([q d] & <- & I). apply located_entries in I. destruct I as (path & name & L & ->). intros x. cbn [fst]. eapply located_plain; eauto. }
    revert A. induction N as [|p l H N IH]; intros A; cbn [map]; constructor; [|apply IH; intros; apply A; now right].
    rewrite in_map_iff. intros (q & E & I). apply H. replace p with q; auto. apply join_inj; try (apply A; cbn; auto); auto.
Qed.

(** *** filters *)
Lemma existsb_str x l : existsb (str_eqb x) l = true <-> In x l.
Proof. rewrite existsb_exists. split; [intros (y & I & E); apply str_eqb_eq in E; now subst|intros I; exists x; split; auto; apply str_eqb_refl]. Qed.
Lemma spatiotemporal_ok valid d n dims : In (n, dims) (spatiotemporal valid d) <-> In (n, dims) d /\ forall l, valid = Some l -> forall x, In x dims -> In x l.
Proof.
  destruct valid as [l|]; cbn [spatiotemporal].
  - rewrite filter_In. cbn [snd]. rewrite forallb_forall. split.
    + intros [I H]. split; auto. intros l' E x J. injection E as <-. apply existsb_str. auto.
    + intros [I H]. split; auto. intros x J. apply existsb_str. eapply H; eauto.
  - split; [intros I; split; auto; discriminate|tauto].
Qed.
Lemma exclude_ok root dims n ds : In (n, ds) (netcdf_variables true dims root) <-> In (n, ds) (all_variables root) /\ ~ In n dims.
Proof.
  cbn [netcdf_variables]. generalize (all_variables root). induction dims as [|k r IH]; intros d; cbn [fold_left]; [cbn; tauto|].
  rewrite IH. unfold remove_key. rewrite filter_In. cbn [fst]. destruct (str_eqb n k) eqn:E.
  - apply str_eqb_eq in E. subst. cbn. intuition congruence.
  - assert (n <> k) by (intros ->; rewrite str_eqb_refl in E; discriminate). cbn. intuition congruence.
Qed.
Lemma include_eq root dims : netcdf_variables false dims root = all_variables root.
Proof. reflexivity. Qed.

(** *** names *)
Lemma ends_eq p s : ends_with p s = true <-> ends p s. Proof. apply ends_iff. Qed.
Lemma ends_differ p q s a b : ends (p ++ [a]) s -> ends (q ++ [b]) s -> a = b.
Proof. intros [x ->] [y E]. rewrite !app_assoc in E. apply app_inj_tail in E. tauto. Qed.
Lemma nc_hdf s : ends (lit ".nc") s -> ends (lit ".hdf") s -> False.
Proof. intros A B. pose proof (ends_differ (lit ".n") (lit ".hd") s "c"%char "f"%char A B). discriminate. Qed.
Lemma h5_hdf s : ends (lit ".h5") s -> ends (lit ".hdf") s -> False.
Proof. intros A B. pose proof (ends_differ (lit ".h") (lit ".hd") s "5"%char "f"%char A B). discriminate. Qed.
Lemma ends_false p s : ~ ends p s -> ends_with p s = false.
Proof. intros N. destruct (ends_with p s) eqn:E; auto. apply ends_eq in E. contradiction. Qed.
Lemma asks_default k : asks (Some (lit "SD")) k <-> asks None k.
Proof. cbn [asks]. change (lower (lit "SD")) with (lit "sd"). split; congruence. Qed.
Lemma netcdf_offers valid t file root : ends (lit ".nc") file \/ ends (lit ".h5") file -> lawful root ->
  forall n, In n (map fst (spatiotemporal valid (netcdf_variables false [] root))) <-> offers valid t (file, NetCDF root) n.
Proof.
  intros E W n. destruct (groups_ok root W) as [G _]. rewrite in_map_iff. split.
  - intros ([n' d] & <- & I). apply spatiotemporal_ok in I. destruct I as [I V]. rewrite include_eq in I. apply G in I. destruct I as (path & name & L & ->). cbn [fst]. eapply offers_netcdf; eauto.
  - intros O. inversion O; subst. exists (full_name path name, dims). split; auto. apply spatiotemporal_ok. split; auto. rewrite include_eq. apply G. eauto.
Qed.
Lemma sd_vd : lit "sd" <> lit "vd". Proof. discriminate. Qed.
Lemma file_names_ok valid f t : usable t f -> exists l t', file_names valid f t = Ok (l, t') /\ (forall k, asks t' k <-> asks t k) /\ forall n, In n l <-> offers valid t f n.
Proof.
  intros U. inversion U as [file root E W|file h E A]; subst; unfold file_names; cbn [fst snd].
  - destruct (ends_with (lit ".nc") file) eqn:EN.
    { eexists _, _. split; [reflexivity|]. split; [tauto|]. apply netcdf_offers; auto. }
    destruct E as [E|E]; [apply ends_eq in E; congruence|].
    rewrite (ends_false (lit ".hdf")) by (intros H; eapply h5_hdf; eauto). destruct (ends_with (lit ".h5") file) eqn:E5; [|apply ends_eq in E; congruence].
    eexists _, _. split; [reflexivity|]. split; [tauto|]. apply netcdf_offers; auto.
  - rewrite (ends_false (lit ".nc")) by (intros H; eapply nc_hdf; eauto). pose proof E as E'. apply ends_eq in E'. rewrite E'.
    set (t' := match t with None => Some (lit "SD") | t => t end).
    assert (T : forall k, asks t' k <-> asks t k) by (intros k; unfold t'; destruct t; [reflexivity|apply asks_default]).
    assert (A' : asks t' (lit "sd") \/ asks t' (lit "vd")) by (rewrite !T; auto).
    assert (exists s, t' = Some s) as [s Es] by (unfold t'; destruct t; eauto). rewrite Es in *. cbn [hdf4_variables asks] in *.
    destruct A' as [L|L].
    + rewrite L. cbn [bind]. rewrite str_eqb_refl. cbn [bind fst snd or_empty]. eexists _, _. split; [reflexivity|]. split; [exact T|]. intros n. rewrite app_nil_r. destruct h as [sd vd]. cbn [h_sd]. split.
      * intros I. destruct sd as [l|]; [|destruct I]. apply offers_sd; auto. apply T. exact L.
      * intros O. inversion O as [|? l v ? ? As I|? l ? ? ? As I]; subst; [exact I|]. apply T in As. exfalso. apply sd_vd. congruence.
    + rewrite L. replace (str_eqb (lit "vd") (lit "sd")) with false by reflexivity. rewrite str_eqb_refl. cbn [bind fst snd or_empty app]. eexists _, _. split; [reflexivity|]. split; [exact T|]. intros n. destruct h as [sd vd]. cbn [h_vd]. split.
      * intros I. destruct vd as [l|]; [|destruct I]. apply offers_vd; auto. apply T. exact L.
      * intros O. inversion O as [|? l v ? ? As I|? l ? ? ? As I]; subst; [|exact I]. apply T in As. exfalso. apply sd_vd. congruence.
Qed.
Lemma offers_ext valid t t' f n : (forall k, asks t' k <-> asks t k) -> offers valid t' f n -> offers valid t f n.
Proof. intros T O. inversion O; subst; [eapply offers_netcdf|eapply offers_sd|eapply offers_vd]; eauto; apply T; auto. Qed.
Lemma usable_ext t t' f : (forall k, asks t' k <-> asks t k) -> usable t f -> usable t' f.
Proof. intros T O. inversion O; subst; [apply usable_netcdf|apply usable_hdf]; auto. now rewrite !T. Qed.
Lemma base_names_ok valid files : forall t, Forall (usable t) files -> exists l, base_names valid files t = Ok l /\ forall n, In n l <-> exists f, In f files /\ offers valid t f n.
Proof.
  induction files as [|f rest IH]; intros t U; cbn [base_names]; [exists []; split; auto; intros n; split; [intros []|intros (? & [] & _)]|].
  inversion U as [|? ? U1 U2]; subst. destruct (file_names_ok valid f t U1) as (l & t' & -> & T & L). cbn [bind fst snd].
  destruct (IH t') as (m & -> & M). { eapply Forall_impl; [|exact U2]. intros. eapply usable_ext; eauto. }
  cbn [bind]. eexists. split; [reflexivity|]. intros n. rewrite in_app_iff, L, M. split.
  - intros [O|(g & I & O)]; [exists f; cbn; auto|]. exists g. split; [now right|]. eapply offers_ext; eauto.
  - intros (g & [<-|I] & O); auto. right. exists g. split; auto. eapply offers_ext; [|exact O]. intros k. symmetry. apply T.
Qed.
Theorem names_ok valid files t : Forall (usable t) files -> exists l, get_variable_names valid files t = Ok l /\ NoDup l /\ forall n, In n l <-> exists f, In f files /\ offers valid t f n.
Proof.
  intros U. destruct (base_names_ok valid files t U) as (l & E & L). unfold get_variable_names. rewrite E. cbn [bind]. eexists. split; [reflexivity|]. split; [apply NoDup_nodup|]. intros n. rewrite nodup_In. apply L.
Qed.
Theorem all_refuted valid file h rest t : ends (lit ".hdf") file -> ~ asks (Some t) (lit "sd") -> ~ asks (Some t) (lit "vd") -> get_variable_names valid ((file, HDF4 h) :: rest) (Some t) = Raises ValueError.
Proof.
  intros E A B. unfold get_variable_names. cbn [base_names]. unfold file_names. cbn [fst snd]. rewrite (ends_false (lit ".nc")) by (intros H; eapply nc_hdf; eauto). apply ends_eq in E. rewrite E.
  cbn [hdf4_variables]. cbn [asks] in *. destruct (str_eqb (lower t) (lit "sd")) eqn:E1; [apply str_eqb_eq in E1; contradiction|]. destruct (str_eqb (lower t) (lit "vd")) eqn:E2; [apply str_eqb_eq in E2; contradiction|]. reflexivity.
Qed.
Theorem both_refuted sd vd : hdf4_variables (mkHdf (Some sd) (Some vd)) None = Ok (Some sd, None).
Proof. reflexivity. Qed.
Lemma base_names_app valid pre f rest : forall t e, Forall (usable t) pre -> (forall t', (forall k, asks t' k <-> asks t k) -> file_names valid f t' = Raises e) -> base_names valid (pre ++ f :: rest) t = Raises e.
Proof.
  induction pre as [|g pre IH]; intros t e U H; cbn [app base_names].
  - rewrite H; [reflexivity|tauto].
  - inversion U as [|? ? U1 U2]; subst. destruct (file_names_ok valid g t U1) as (l & t' & -> & T & _). cbn [bind fst snd]. rewrite (IH t' e); [reflexivity| |].
    + eapply Forall_impl; [|exact U2]. intros. eapply usable_ext; eauto.
    + intros t2 T2. apply H. intros k. rewrite T2. apply T.
Qed.
Theorem other_ending valid pre file c rest t : Forall (usable t) pre -> ~ ends (lit ".nc") file -> ~ ends (lit ".hdf") file -> ~ ends (lit ".h5") file ->
  get_variable_names valid (pre ++ (file, c) :: rest) t = Raises TypeError.
Proof.
  intros U A B C. unfold get_variable_names. rewrite (base_names_app valid pre (file, c) rest t TypeError); auto. intros t' _. unfold file_names. cbn [fst]. rewrite !ends_false; auto.
Qed.
Theorem unopened valid pre file c rest t : Forall (usable t) pre -> ends (lit ".nc") file \/ ends (lit ".h5") file -> (forall g, c <> NetCDF g) ->
  get_variable_names valid (pre ++ (file, c) :: rest) t = Raises OSError.
Proof.
  intros U A B. unfold get_variable_names. rewrite (base_names_app valid pre (file, c) rest t OSError); auto. intros t' _. unfold file_names. cbn [fst snd].
  assert (X : forall X (u : group -> res X) (v : res X), match c with NetCDF g => u g | _ => v end = v) by (intros; destruct c; auto; exfalso; eapply B; eauto). rewrite !X.
  destruct A as [A|A].
  - apply ends_eq in A. now rewrite A.
  - destruct (ends_with (lit ".nc") file); auto. rewrite (ends_false (lit ".hdf")) by (intros H; eapply h5_hdf; eauto). apply ends_eq in A. now rewrite A.
Qed.
(** an HDF file that cannot be read has no variables, and no error *)
Theorem unreadable_refuted valid file t : ends (lit ".hdf") file -> asks t (lit "sd") \/ asks t (lit "vd") -> get_variable_names valid [(file, Unreadable)] t = Ok [].
Proof.
  intros E A. destruct (file_names_ok valid (file, HDF4 (mkHdf None None)) t) as (l & t' & F & _ & L); [now apply usable_hdf|].
  assert (file_names valid (file, Unreadable) t = file_names valid (file, HDF4 (mkHdf None None)) t) as X.
  { unfold file_names. cbn [fst snd]. now rewrite (ends_false (lit ".nc")) by (intros H; eapply nc_hdf; eauto). }
  unfold get_variable_names. cbn [base_names]. rewrite X, F. cbn [bind fst]. rewrite app_nil_r. destruct l as [|a l]; [reflexivity|]. assert (O : offers valid t (file, HDF4 (mkHdf None None)) a) by (apply L; now left). inversion O.
Qed.

(** *** CALIOP, MODIS, CloudSat *)
Lemma dict_get_in {A} (d : list (str * A)) k v : dict_get d k = Some v -> In (k, v) d.
Proof. induction d as [|[k' v'] d IH]; cbn; [discriminate|]. destruct (str_eq_dec k' k); [intros [= ->]; subst; auto|auto]. Qed.
Lemma in_dict_get {A} (d : list (str * A)) k v : once d -> In (k, v) d -> dict_get d k = Some v.
Proof. unfold once. induction d as [|[k' v'] d IH]; cbn; [intros _ []|]. intros N [E|I]; inversion N; subst. { injection E as -> ->. destruct (str_eq_dec k k); congruence. } destruct (str_eq_dec k' k); [|auto]. subst. exfalso. apply H1. apply in_map_iff. exists (k, v). auto. Qed.
Lemma shape_eqb_eq a b : shape_eqb a b = true <-> a = b. Proof. unfold shape_eqb. destruct (list_eq_dec Nat.eq_dec a b); split; congruence. Qed.
Lemma of_shape_ok s files n : In n (of_shape s files) <-> exists f, In f files /\ In (n, s) f.
Proof.
  unfold of_shape. rewrite nodup_In, in_flat_map. split; intros (f & I & J); exists f; split; auto.
  - rewrite in_map_iff in J. destruct J as ([n' s'] & <- & J). apply filter_In in J. cbn [fst snd] in *. destruct J as [J E]. apply shape_eqb_eq in E. now subst.
  - apply in_map_iff. exists (n, s). split; auto. apply filter_In. split; auto. now apply shape_eqb_eq.
Qed.
Theorem modis_ok files s : files <> [] -> Forall (fun f : list (str * list nat) => once f /\ In (lit "Latitude", s) f) files ->
  exists l, modis_names files = Ok l /\ NoDup l /\ forall n, In n l <-> exists f, In f files /\ beside (lit "Latitude") f n.
Proof.
  intros N F. rewrite Forall_forall in F. destruct files as [|f r]; [congruence|]. cbn [modis_names]. destruct (F f (or_introl eq_refl)) as [O I]. rewrite (in_dict_get f _ s O I).
  eexists. split; [reflexivity|]. split; [apply NoDup_nodup|]. intros n. rewrite of_shape_ok. split; intros (g & J & K); exists g; split; auto; destruct (F g J) as [O' I'].
  - exists s. auto.
  - destruct K as (s' & A & B). replace s with s'; auto. apply (in_dict_get _ _ _ O') in A. apply (in_dict_get _ _ _ O') in I'. congruence.
Qed.
Theorem modis_refuted : exists f g l, Forall once [f; g] /\ modis_names [f; g] = Ok l /\ exists n, beside (lit "Latitude") g n /\ ~ In n l.
Proof.
  exists [(lit "Latitude", [2])], [(lit "Latitude", [3]); (lit "b", [3])], [lit "Latitude"]. split; [repeat constructor; cbn; intuition discriminate|]. split; [reflexivity|].
  exists (lit "b"). split; [exists [3]; cbn; auto|]. cbn. intuition discriminate.
Qed.
Theorem caliop_ok altitudes files k s : files <> [] -> Forall (fun f : list (str * list nat) => once f /\ In (lit "Latitude", k :: s) f) files ->
  exists l, caliop_names altitudes files = Ok l /\ NoDup l /\ forall n, In n l <-> exists f, In f files /\ over_altitudes altitudes f n.
Proof.
  intros N F. rewrite Forall_forall in F. destruct files as [|f r]; [congruence|]. cbn [caliop_names]. destruct (F f (or_introl eq_refl)) as [O I]. rewrite (in_dict_get f _ (k :: s) O I).
  eexists. split; [reflexivity|]. split; [apply NoDup_nodup|]. intros n. rewrite of_shape_ok. split; intros (g & J & K); exists g; split; auto; destruct (F g J) as [O' I'].
  - exists k, s. auto.
  - destruct K as (k' & s' & A & B). apply (in_dict_get _ _ _ O') in A. apply (in_dict_get _ _ _ O') in I'. rewrite A in I'. injection I' as -> _. exact B.
Qed.
Theorem caliop_refuted : exists f g l, Forall once [f; g] /\ caliop_names 5 [f; g] = Ok l /\ exists n, over_altitudes 5 g n /\ ~ In n l.
Proof.
  exists [(lit "Latitude", [2; 1])], [(lit "Latitude", [3; 1]); (lit "b", [3; 5])], []. split; [repeat constructor; cbn; intuition discriminate|]. split; [reflexivity|].
  exists (lit "b"). split; [exists 3, [1]; cbn; auto|]. cbn. tauto.
Qed.
Lemma cloudsat_file_ok f : once (fst f) -> once (snd f) -> In (lit "Latitude") (map fst (fst f)) -> exists l, cloudsat_file f = Ok l /\ forall n, In n l <-> level f n.
Proof.
  intros O1 O2 I. destruct f as [tables sets]. cbn [fst snd] in *. unfold cloudsat_file. cbn [fst snd].
  rewrite in_map_iff in I. destruct I as ([n0 r] & E & I). cbn [fst] in E. subst n0.
  destruct (filter _ tables) as [|[n1 r1] rest] eqn:F.
  { exfalso. assert (X : In (lit "Latitude", r) (filter (fun v => str_eqb (fst v) (lit "Latitude")) tables)) by (apply filter_In; split; auto; apply str_eqb_refl). rewrite F in X. destruct X. }
  assert (X : In (n1, r1) (filter (fun v => str_eqb (fst v) (lit "Latitude")) tables)) by (rewrite F; now left). apply filter_In in X. destruct X as [X Y]. cbn [fst] in Y. apply str_eqb_eq in Y. subst n1.
  assert (r1 = r). { apply (in_dict_get _ _ _ O1) in I. apply (in_dict_get _ _ _ O1) in X. congruence. } subst r1.
  eexists. split; [reflexivity|]. intros n. rewrite in_app_iff, in_map_iff. unfold level, beside. cbn [fst snd]. split.
  - intros [([n' r'] & <- & J)|J].
    + apply filter_In in J. cbn [fst snd] in *. destruct J as [J E]. apply Nat.eqb_eq in E. subst. left. eauto.
    + right. destruct (dict_get sets (lit "Height")) as [s|] eqn:D; [|destruct J]. apply in_map_iff in J. destruct J as ([n' s'] & <- & J). apply filter_In in J. cbn [fst snd] in *. destruct J as [J E]. apply shape_eqb_eq in E. subst. exists s. split; auto. now apply dict_get_in.
  - intros [(r' & A & B)|(s & A & B)].
    + left. exists (n, r'). split; auto. apply filter_In. split; auto. cbn [snd]. apply Nat.eqb_eq. apply (in_dict_get _ _ _ O1) in A. apply (in_dict_get _ _ _ O1) in I. congruence.
    + right. rewrite (in_dict_get _ _ _ O2 A). apply in_map_iff. exists (n, s). split; auto. apply filter_In. split; auto. now apply shape_eqb_eq.
Qed.
Theorem cloudsat_ok files : Forall (fun f : list (str * nat) * list (str * list nat) => once (fst f) /\ once (snd f) /\ In (lit "Latitude") (map fst (fst f))) files ->
  exists l, cloudsat_names files = Ok l /\ NoDup l /\ forall n, In n l <-> exists f, In f files /\ level f n.
Proof.
  intros F. assert (exists l, cloudsat_all files = Ok l /\ forall n, In n l <-> exists f, In f files /\ level f n) as (l & E & L).
  { induction F as [|f r (A & B & C) F IH]; cbn [cloudsat_all]; [exists []; split; auto; intros n; split; [intros []|intros (? & [] & _)]|].
    destruct (cloudsat_file_ok f A B C) as (l & -> & L). destruct IH as (m & -> & M). cbn [bind]. eexists. split; [reflexivity|]. intros n. rewrite in_app_iff, L, M. split.
    - intros [O|(g & I & O)]; [exists f; cbn; auto|]. exists g. cbn. auto.
    - intros (g & [<-|I] & O); eauto. }
  unfold cloudsat_names. rewrite E. cbn [bind]. eexists. split; [reflexivity|]. split; [apply NoDup_nodup|]. intros n. rewrite nodup_In. apply L.
Qed.

(** *** errors, info *)
Theorem errors_ok A product kind message more (a : A) : through_product product (Throws (A := A) kind (message :: more)) = PluginException product kind message /\ through_product product (Gives a) = Returned a.
Proof. split; reflexivity. Qed.
Theorem errors_refuted A product kind : through_product product (Throws (A := A) kind []) = Other IndexError.
Proof. reflexivity. Qed.
Lemma print_each_ok data variables : prints data variables (fst (print_each data variables)) (snd (print_each data variables)).
Proof. induction variables as [|v r IH]; cbn; [constructor|]. destruct (data v) eqn:E; cbn; [now apply printed|now apply stopped]. Qed.
Theorem info_ok data names : (forall variables, prints data variables (fst (info data names (Some variables))) (snd (info data names (Some variables)))) /\
  (forall l, names = Ok l -> info data names None = (l, None)) /\ (forall e, names = Raises e -> info data names None = ([], Some e)).
Proof. split; [intros; apply print_each_ok|]. split; intros ? ->; reflexivity. Qed.

Section Args.
Variable V : Type.
Variable cv cf cp : checker V.
Lemma one_file file : colon_words (escape file) = [file].
Proof. apply (colon_words_escape [file]); [discriminate|]. intros a x y b E. destruct a as [|? [|]]; discriminate. Qed.
Lemma two_words x y : ~ ends_in_backslash x -> colon_words (escape x ++ ":"%char :: escape y) = [x; y].
Proof. intros N. apply (colon_words_escape [x; y]); [discriminate|]. intros a u v b E. destruct a as [|? [|? [|]]]; try discriminate. injection E as <- _ _. exact N. Qed.
Theorem args_file file : info_args V cv cf cp (escape file) = match cf file with Ok v => Ok [(lit "filenames", Checked v)] | Raises IndexError => Ok [(lit "filenames", NoneVal)] | Raises e => Raises e end.
Proof. unfold info_args. rewrite one_file. unfold parse_one. rewrite one_file. cbn -[lit]. destruct (cf file) as [v|[]]; reflexivity. Qed.
Theorem args_both variables file vs fs : ~ ends_in_backslash variables -> cv variables = Ok vs -> cf file = Ok fs ->
  info_args V cv cf cp (escape variables ++ ":"%char :: escape file) = Ok [(lit "variables", Checked vs); (lit "filenames", Checked fs)].
Proof. intros N A B. unfold info_args. rewrite (two_words _ _ N). unfold parse_one. rewrite (two_words _ _ N). cbn -[lit]. rewrite A. cbn -[lit]. rewrite B. reflexivity. Qed.
Theorem args_product_refuted file product vs : ~ ends_in_backslash file -> cv file = Ok vs -> cf (lit "product=" ++ product) = Raises ParserError ->
  info_args V cv cf cp (escape file ++ ":"%char :: escape (lit "product=" ++ product)) = Raises ParserError.
Proof. intros N A B. unfold info_args. rewrite (two_words _ _ N). unfold parse_one. rewrite (two_words _ _ N). cbn -[lit]. rewrite A. cbn -[lit]. unfold lit in *. rewrite B. reflexivity. Qed.
End Args.
