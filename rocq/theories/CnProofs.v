From Coq Require Import String.
From Verif Require Import Base PyStr FileListModel FileListProofs ProdModel AeroProofs MtProofs CnModel CnSpec.
From Coq Require Import List QArith Lia Bool.
Import ListNotations.
Open Scope string_scope. Open Scope list_scope. Open Scope nat_scope. Notation length := List.length.

(** *** kernels *)
Lemma names_offered : map c_name (find_plugin_classes None kernels) = map lit ["gridded_gridded_li"; "gridded_gridded_nn"; "max"; "mean"; "min"; "moments"; "nn_a"; "nn_altitude"; "nn_h"; "nn_horizontal"; "nn_horizontal_only"; "nn_p"; "nn_pressure"; "nn_t"; "nn_time"; "stddev"; "sum"].
Proof. vm_compute. reflexivity. Qed.
Lemma get_kernel_iff (l : list pclass) (n : str) : (In n (map c_name l) -> exists c, get_kernel l (Some n) = Ok c /\ c_name c = n) /\ (~ In n (map c_name l) -> get_kernel l (Some n) = Raises ValueError).
Proof.
  unfold get_kernel. induction l as [|c l [IH1 IH2]]; cbn [map In find]; [split; [intros []|reflexivity]|]. destruct (str_eqb n (c_name c)) eqn:E.
  - apply str_eqb_eq in E. subst n. split; [intros _; exists c; auto|intros H; exfalso; apply H; left; reflexivity].
  - assert (c_name c <> n) by (intros <-; rewrite str_eqb_refl in E; discriminate). split; [intros [?|I]; [contradiction|apply IH1; exact I]|intros H'; apply IH2; tauto].
Qed.
Lemma known_iff n : In n (map c_name (find_plugin_classes None kernels)) <-> exists m, In m known_kernels /\ n = lit m.
Proof.
  rewrite names_offered, in_map_iff. unfold known_kernels. split.
  - intros (m & <- & I). exists m. split; [|reflexivity]. cbn [In] in *. tauto.
  - intros (m & I & ->). exists m. split; [reflexivity|]. cbn [In] in *. tauto.
Qed.
Lemma named_kernel (n : str) : n <> [] -> choose_kernel (KName n) = match get_kernel (find_plugin_classes None kernels) (Some n) with Ok c => Ok (kernel_called (c_name c)) | Raises e => Raises e end.
Proof. destruct n; [congruence|reflexivity]. Qed.
Lemma named_cases (n : str) : n <> [] -> (In n (map c_name (find_plugin_classes None kernels)) -> choose_kernel (KName n) = Ok (kernel_called n)) /\ (~ In n (map c_name (find_plugin_classes None kernels)) -> choose_kernel (KName n) = Raises ValueError).
Proof.
  intros NE. rewrite (named_kernel n NE). destruct (get_kernel_iff (find_plugin_classes None kernels) n) as [G1 G2]. split; intros I.
  - destruct (G1 I) as (c & E1 & E2). rewrite E1, E2. reflexivity.
  - rewrite (G2 I). reflexivity.
Qed.
Lemma choose_iff a k : choose_kernel a = Ok k <-> picks a k.
Proof.
  split.
  - destruct a as [|n|k'|]; [intros [= <-]; constructor| |intros [= <-]; constructor|discriminate]. destruct (str_eq_dec n []) as [->|NE]; [intros [= <-]; constructor|].
    destruct (named_cases n NE) as [G1 G2]. destruct (in_dec str_eq_dec n (map c_name (find_plugin_classes None kernels))) as [I|N].
    + rewrite (G1 I). intros X. apply known_iff in I. destruct I as (m & I & E). subst n. assert (X' : kernel_called (lit m) = k) by congruence. rewrite <- X'. unfold kernel_called. destruct (str_eqb (lit m) (lit "moments")) eqn:M.
      * apply str_eqb_eq in M. rewrite M. constructor.
      * apply by_name; [exact I|]. intros ->. rewrite str_eqb_refl in M. discriminate.
    + rewrite (G2 N). discriminate.
  - intros H. destruct H as [| | |n I N|k]; try reflexivity.
    assert (NE : lit n <> []). { intros E. destruct n; [cbn [In known_kernels] in I; repeat (destruct I as [I|I]; [discriminate|]); destruct I|discriminate]. }
    rewrite (proj1 (named_cases (lit n) NE) (proj2 (known_iff _) (ex_intro _ n (conj I eq_refl)))).
    unfold kernel_called. destruct (str_eqb (lit n) (lit "moments")) eqn:M; [apply str_eqb_eq in M; apply lit_inj in M; contradiction|reflexivity].
Qed.
Lemma choose_error a e : choose_kernel a = Raises e -> e = ValueError.
Proof.
  destruct a as [|n|k'|]; try discriminate; [|intros [= <-]; reflexivity]. destruct (str_eq_dec n []) as [->|NE]; [discriminate|].
  destruct (named_cases n NE) as [G1 G2]. destruct (in_dec str_eq_dec n (map c_name (find_plugin_classes None kernels))) as [I|N].
  - rewrite (G1 I). discriminate.
  - rewrite (G2 N). congruence.
Qed.
Lemma made k kk d : picks k kk -> made_by k d (k_details kk d).
Proof.
  intros P. destruct P as [| | |n I N|k]; try (destruct d as [[[n0 l0] s0] u0]; apply m_moments; [constructor|reflexivity..]). { apply m_name; assumption. } apply m_object.
Qed.

Section Collocation.
Context {V : Type}.
Variable limit : str -> V -> res Q.
Variable valid readable : str -> bool.
Variable show_list : list str -> str.
Variable version : str.
Variable texts : way -> option kernel -> str * str.

(** *** limits *)
Lemma limits_names kwargs : forall names l, limits_of limit kwargs names = Ok l -> forall n q, In (n, q) l -> In n names /\ exists v, dict_get kwargs n = Some (Some v) /\ limit n v = Ok q.
Proof.
  induction names as [|m names IH]; cbn [limits_of]; intros l; [intros [= <-] n q []|]. destruct (dict_get kwargs m) as [[v|]|] eqn:D.
  - destruct (limit m v) as [q0|] eqn:L; cbn [bind]; [|discriminate]. destruct (limits_of limit kwargs names) as [l'|] eqn:E; cbn [bind]; [|discriminate]. intros [= <-] n q [I|I].
    + injection I as -> ->. split; [left; reflexivity|]. exists v. auto.
    + destruct (IH l' eq_refl n q I) as [J K]. split; [right; exact J|exact K].
  - intros H n q I. destruct (IH l H n q I) as [J K]. split; [right; exact J|exact K].
  - intros H n q I. destruct (IH l H n q I) as [J K]. split; [right; exact J|exact K].
Qed.
Lemma limits_nodup kwargs : forall names l, NoDup names -> limits_of limit kwargs names = Ok l -> NoDup (map fst l).
Proof.
  induction names as [|m names IH]; cbn [limits_of]; intros l N; inversion N; subst; [intros [= <-]; constructor|]. destruct (dict_get kwargs m) as [[v|]|] eqn:D; [|apply IH; assumption..].
  destruct (limit m v) as [q0|] eqn:L; cbn [bind]; [|discriminate]. destruct (limits_of limit kwargs names) as [l'|] eqn:E; cbn [bind]; [|discriminate]. intros [= <-]. cbn [map fst]. constructor; [|apply IH; auto].
  intros I. apply in_map_iff in I. destruct I as ([n q] & Eq & I). cbn in Eq. subst n. destruct (limits_names kwargs names l' E m q I) as [J _]. contradiction.
Qed.
Lemma limits_all kwargs : forall names l, limits_of limit kwargs names = Ok l -> forall n v, In n names -> dict_get kwargs n = Some (Some v) -> exists q, limit n v = Ok q /\ In (n, q) l.
Proof.
  induction names as [|m names IH]; cbn [limits_of]; intros l; [intros _ n v []|]. destruct (dict_get kwargs m) as [[w|]|] eqn:D.
  - destruct (limit m w) as [q0|] eqn:L; cbn [bind]; [|discriminate]. destruct (limits_of limit kwargs names) as [l'|] eqn:E; cbn [bind]; [|discriminate]. intros [= <-] n v [->|I] G.
    + rewrite D in G. injection G as ->. exists q0. split; [exact L|left; reflexivity].
    + destruct (IH l' eq_refl n v I G) as (q & A & B). exists q. split; [exact A|right; exact B].
  - intros H n v [->|I] G; [congruence|exact (IH l H n v I G)].
  - intros H n v [->|I] G; [congruence|exact (IH l H n v I G)].
Qed.
Lemma limits_ok kwargs : forall names, (forall n v, In n names -> dict_get kwargs n = Some (Some v) -> exists q, limit n v = Ok q) -> exists l, limits_of limit kwargs names = Ok l.
Proof.
  induction names as [|m names IH]; cbn [limits_of]; intros H; [exists []; reflexivity|]. destruct (IH (fun n v I => H n v (or_intror I))) as (l & E). destruct (dict_get kwargs m) as [[w|]|] eqn:D; [|exists l; exact E..].
  destruct (H m w (or_introl eq_refl) D) as (q & L). rewrite L. cbn [bind]. rewrite E. exists ((m, q) :: l). reflexivity.
Qed.
Lemma nodup_limits : NoDup limit_names.
Proof. unfold limit_names. cbn [map]. repeat constructor; cbn [In]; intros X; repeat (destruct X as [X|X]; [apply lit_inj in X; discriminate|]); destruct X. Qed.
Lemma known_args kwargs : forallb (fun kv : str * option V => existsb (str_eqb (fst kv)) limit_names) kwargs = true <-> forall n, In n (map fst kwargs) -> In n separations.
Proof.
  rewrite forallb_forall. split.
  - intros H n I. apply in_map_iff in I. destruct I as (kv & <- & I). specialize (H kv I). apply existsb_exists in H. destruct H as (m & J & E). apply str_eqb_eq in E. rewrite E. exact J.
  - intros H kv I. apply existsb_exists. exists (fst kv). split; [apply (H (fst kv)); apply in_map; exact I|apply str_eqb_refl].
Qed.
Lemma sep_sound kwargs l : sep_constraint limit kwargs = Ok l -> (forall n, In n (map fst kwargs) -> In n separations) /\ given limit kwargs l.
Proof.
  unfold sep_constraint. destruct (forallb _ _) eqn:F; [|discriminate]. intros H. pose proof (proj1 (known_args kwargs) F) as K. split; [exact K|]. split; [exact (limits_nodup kwargs _ l nodup_limits H)|]. intros n q. split.
  - intros I. exact (proj2 (limits_names kwargs _ l H n q I)).
  - intros (v & D & L). assert (I : In n limit_names). { apply (K n). apply (FileListProofs.dict_get_in kwargs n). congruence. }
    destruct (limits_all kwargs _ l H n v I D) as (q' & L' & J). congruence.
Qed.
Lemma sep_complete kwargs : (forall n, In n (map fst kwargs) -> In n separations) -> (forall n v, dict_get kwargs n = Some (Some v) -> exists q, limit n v = Ok q) -> exists l, sep_constraint limit kwargs = Ok l.
Proof. intros K L. unfold sep_constraint. rewrite (proj2 (known_args kwargs) K). apply limits_ok. intros n v _ D. exact (L n v D). Qed.
Lemma sep_unknown kwargs n : In n (map fst kwargs) -> ~ In n separations -> sep_constraint limit kwargs = Raises TypeError.
Proof. intros I N. unfold sep_constraint. destruct (forallb _ _) eqn:F; [|reflexivity]. exfalso. apply N. exact (proj1 (known_args kwargs) F n I). Qed.

(** *** methods *)
Definition fits_way (m : method) (kwargs : list (str * option V)) (w : way) : Prop :=
  match m with MBin => w = Bin | MBox => exists l, w = Box l /\ sep_constraint limit kwargs = Ok l | MLinear => w = Linear | MNearest => w = Nearest end.
Lemma offers_u s data how m : ungridded data -> (offers s data how m <-> exists h, how = lit h /\ In (h, m) (methods s false)).
Proof. intros U. unfold offers. split; [intros ([|] & h & G & R); [destruct data; contradiction|exists h; exact R]|intros (h & R); exists false, h; split; [exact U|exact R]]. Qed.
Lemma offers_g s data how m : gridded data -> (offers s data how m <-> exists h, how = lit h /\ In (h, m) (methods s true)).
Proof. intros U. unfold offers. split; [intros ([|] & h & G & R); [exists h; exact R|destruct data; contradiction]|intros (h & R); exists true, h; split; [exact U|exact R]]. Qed.
Lemma how_dec (how : str) h : {how = lit h} + {how <> lit h}.
Proof. apply (list_eq_dec ascii_dec). Qed.
Lemma str_eqb_neq_lit how h : how <> lit h -> str_eqb how (lit h) = false.
Proof. intros N. destruct (str_eqb how (lit h)) eqn:E; [apply str_eqb_eq in E; contradiction|reflexivity]. Qed.
Lemma plan_u s data how k kwargs wk : ungridded data -> (plan limit s data how k kwargs = Ok wk <-> exists m w kk, wk = (w, Some kk) /\ offers s data how m /\ fits_way m kwargs w /\ picks k kk).
Proof.
  intros U. assert (K : forall w, bind (choose_kernel k) (fun k0 => Ok (w, Some k0)) = Ok wk <-> exists kk, wk = (w, Some kk) /\ picks k kk).
  { intros w. pose proof (choose_iff k) as C. destruct (choose_kernel k) as [kk|e]; cbn [bind].
    - split; [intros [= <-]; exists kk; split; [reflexivity|apply C; reflexivity]|]. intros (k' & -> & P). apply C in P. congruence.
    - split; [discriminate|]. intros (k' & _ & P). apply C in P. discriminate. }
  split.
  - intros H. destruct s.
    + assert (H' : bind (if str_eqb how [] || str_eqb how (lit "bin") then Ok Bin else if str_eqb how (lit "box") then bind (sep_constraint limit kwargs) (fun l => Ok (Box l)) else Raises ValueError) (fun w => bind (choose_kernel k) (fun k => Ok (w, Some k))) = Ok wk) by (destruct data; try contradiction; exact H).
      clear H. destruct (str_eqb how []) eqn:E1; [|destruct (str_eqb how (lit "bin")) eqn:E2; [|destruct (str_eqb how (lit "box")) eqn:E3; [|discriminate]]]; cbn [orb bind] in H'.
      * apply str_eqb_eq in E1. apply K in H'. destruct H' as (kk & -> & P). exists MBin, Bin, kk. split; [reflexivity|]. split; [|split; [reflexivity|exact P]]. apply offers_u; [exact U|]. exists ""%string. subst how. cbn. auto.
      * apply str_eqb_eq in E2. apply K in H'. destruct H' as (kk & -> & P). exists MBin, Bin, kk. split; [reflexivity|]. split; [|split; [reflexivity|exact P]]. apply offers_u; [exact U|]. exists "bin"%string. subst how. cbn. auto.
      * apply str_eqb_eq in E3. destruct (sep_constraint limit kwargs) as [l|] eqn:SC; [|discriminate]. cbn [bind] in H'. apply K in H'. destruct H' as (kk & -> & P). exists MBox, (Box l), kk. split; [reflexivity|]. split; [|split; [exists l; auto|exact P]].
        apply offers_u; [exact U|]. exists "box"%string. subst how. cbn. auto.
    + assert (H' : (if existsb (str_eqb how) [[]; lit "box"] then bind (sep_constraint limit kwargs) (fun l => bind (choose_kernel k) (fun k => Ok (Box l, Some k))) else Raises ValueError) = Ok wk) by (destruct data; try contradiction; exact H).
      clear H. destruct (existsb (str_eqb how) [[]; lit "box"]) eqn:E; [|discriminate]. destruct (sep_constraint limit kwargs) as [l|] eqn:SC; [|discriminate]. cbn [bind] in H'. apply K in H'. destruct H' as (kk & -> & P).
      exists MBox, (Box l), kk. split; [reflexivity|]. split; [|split; [exists l; auto|exact P]]. apply offers_u; [exact U|]. cbn [existsb] in E. rewrite orb_false_r in E. apply orb_true_iff in E. destruct E as [E|E]; apply str_eqb_eq in E; subst how; [exists ""%string|exists "box"%string]; cbn; auto.
    + assert (H' : (if existsb (str_eqb how) [[]; lit "box"] then bind (sep_constraint limit kwargs) (fun l => bind (choose_kernel k) (fun k => Ok (Box l, Some k))) else Raises ValueError) = Ok wk) by (destruct data; try contradiction; exact H).
      clear H. destruct (existsb (str_eqb how) [[]; lit "box"]) eqn:E; [|discriminate]. destruct (sep_constraint limit kwargs) as [l|] eqn:SC; [|discriminate]. cbn [bind] in H'. apply K in H'. destruct H' as (kk & -> & P).
      exists MBox, (Box l), kk. split; [reflexivity|]. split; [|split; [exists l; auto|exact P]]. apply offers_u; [exact U|]. cbn [existsb] in E. rewrite orb_false_r in E. apply orb_true_iff in E. destruct E as [E|E]; apply str_eqb_eq in E; subst how; [exists ""%string|exists "box"%string]; cbn; auto.
  - intros (m & w & kk & -> & O & F & P). apply offers_u in O; [|exact U]. destruct O as (h & -> & I). pose proof (proj2 (choose_iff k kk) P) as C.
    destruct s; cbn [methods onto_grid onto_points In] in I; repeat (destruct I as [I|I]; [injection I as <- <-; cbn [fits_way] in F|]); try destruct I;
    (destruct data; try contradiction; cbn [plan plan_onto_grid plan_onto_points]).
    all: try (destruct F as (l0 & -> & F)); subst; cbn -[choose_kernel sep_constraint]; rewrite ?F; cbn [bind]; rewrite C; reflexivity.
Qed.
Lemma plan_g s data how k kwargs wk : gridded data -> (plan limit s data how k kwargs = Ok wk <-> exists m w, wk = (w, None) /\ offers s data how m /\ fits_way m kwargs w /\ (s = Grid -> k = KNone)).
Proof.
  intros U. split.
  - intros H. destruct s.
    + assert (H' : k = KNone /\ (if str_eqb how [] || str_eqb how (lit "lin") then Ok (Linear, None) else if str_eqb how (lit "nn") then Ok (Nearest, None) else Raises ValueError) = Ok wk) by (destruct data; try contradiction; (destruct k; [split; [reflexivity|exact H]|discriminate..])).
      clear H. destruct H' as [-> H]. destruct (str_eqb how []) eqn:E1; [|destruct (str_eqb how (lit "lin")) eqn:E2; [|destruct (str_eqb how (lit "nn")) eqn:E3; [|discriminate]]]; cbn [orb] in H; injection H as <-.
      * apply str_eqb_eq in E1. exists MLinear, Linear. split; [reflexivity|]. split; [|split; reflexivity]. apply offers_g; [exact U|]. exists ""%string. subst how. cbn. auto.
      * apply str_eqb_eq in E2. exists MLinear, Linear. split; [reflexivity|]. split; [|split; reflexivity]. apply offers_g; [exact U|]. exists "lin"%string. subst how. cbn. auto.
      * apply str_eqb_eq in E3. exists MNearest, Nearest. split; [reflexivity|]. split; [|split; reflexivity]. apply offers_g; [exact U|]. exists "nn"%string. subst how. cbn. auto.
    + assert (H' : (if existsb (str_eqb how) [[]; lit "lin"; lit "nn"] then Ok (if str_eqb how (lit "nn") then Nearest else Linear, None) else Raises ValueError) = Ok wk) by (destruct data; try contradiction; exact H).
      clear H. cbn [existsb] in H'. destruct (str_eqb how []) eqn:E1; [|destruct (str_eqb how (lit "lin")) eqn:E2; [|destruct (str_eqb how (lit "nn")) eqn:E3; [|discriminate]]]; cbn [orb] in H'; injection H' as <-.
      * apply str_eqb_eq in E1. exists MLinear, Linear. subst how. split; [reflexivity|]. split; [|split; [reflexivity|discriminate]]. apply offers_g; [exact U|]. exists ""%string. cbn. auto.
      * apply str_eqb_eq in E2. exists MLinear, Linear. subst how. split; [reflexivity|]. split; [|split; [reflexivity|discriminate]]. apply offers_g; [exact U|]. exists "lin"%string. cbn. auto.
      * apply str_eqb_eq in E3. exists MNearest, Nearest. subst how. split; [reflexivity|]. split; [|split; [reflexivity|discriminate]]. apply offers_g; [exact U|]. exists "nn"%string. cbn. auto.
    + assert (H' : (if existsb (str_eqb how) [[]; lit "lin"; lit "nn"] then Ok (if str_eqb how (lit "nn") then Nearest else Linear, None) else Raises ValueError) = Ok wk) by (destruct data; try contradiction; exact H).
      clear H. cbn [existsb] in H'. destruct (str_eqb how []) eqn:E1; [|destruct (str_eqb how (lit "lin")) eqn:E2; [|destruct (str_eqb how (lit "nn")) eqn:E3; [|discriminate]]]; cbn [orb] in H'; injection H' as <-.
      * apply str_eqb_eq in E1. exists MLinear, Linear. subst how. split; [reflexivity|]. split; [|split; [reflexivity|discriminate]]. apply offers_g; [exact U|]. exists ""%string. cbn. auto.
      * apply str_eqb_eq in E2. exists MLinear, Linear. subst how. split; [reflexivity|]. split; [|split; [reflexivity|discriminate]]. apply offers_g; [exact U|]. exists "lin"%string. cbn. auto.
      * apply str_eqb_eq in E3. exists MNearest, Nearest. subst how. split; [reflexivity|]. split; [|split; [reflexivity|discriminate]]. apply offers_g; [exact U|]. exists "nn"%string. cbn. auto.
  - intros (m & w & -> & O & F & N). apply offers_g in O; [|exact U]. destruct O as (h & -> & I).
    destruct s; cbn [methods onto_grid onto_points In] in I; repeat (destruct I as [I|I]; [injection I as <- <-; cbn [fits_way] in F; subst w|]); try destruct I;
    (destruct data; try contradiction; cbn [plan plan_onto_grid plan_onto_points]); try rewrite (N eq_refl); reflexivity.
Qed.

Lemma fits_by m kwargs w : fits_way m kwargs w -> by_method limit m kwargs w.
Proof. destruct m; cbn [fits_way by_method]; auto. intros (l & -> & E). destruct (sep_sound kwargs l E) as [A B]. split; [exact A|]. exists l. auto. Qed.
Lemma methods_u s data how k kwargs wk : ungridded data -> plan limit s data how k kwargs = Ok wk -> exists m w kk, wk = (w, Some kk) /\ offers s data how m /\ by_method limit m kwargs w /\ picks k kk.
Proof. intros U H. apply plan_u in H; [|exact U]. destruct H as (m & w & kk & E & O & F & P). exists m, w, kk. split; [exact E|]. split; [exact O|]. split; [apply fits_by; exact F|exact P]. Qed.
Lemma methods_g s data how k kwargs wk : gridded data -> plan limit s data how k kwargs = Ok wk -> exists m w, wk = (w, None) /\ offers s data how m /\ by_method limit m kwargs w /\ (s = Grid -> k = KNone).
Proof. intros U H. apply plan_g in H; [|exact U]. destruct H as (m & w & E & O & F & P). exists m, w. split; [exact E|]. split; [exact O|]. split; [apply fits_by; exact F|exact P]. Qed.
Lemma methods_u_complete s data how k kwargs m kk : ungridded data -> offers s data how m -> picks k kk ->
  (m = MBox -> (forall n, In n (map fst kwargs) -> In n separations) /\ forall n v, dict_get kwargs n = Some (Some v) -> exists q, limit n v = Ok q) ->
  exists w, plan limit s data how k kwargs = Ok (w, Some kk).
Proof.
  intros U O P B. assert (exists w, fits_way m kwargs w) as (w & F).
  { destruct m; cbn [fits_way]; [eexists; reflexivity| |eexists; reflexivity|eexists; reflexivity]. destruct (B eq_refl) as [B1 B2]. destruct (sep_complete kwargs B1 B2) as (l & E). exists (Box l), l. auto. }
  exists w. apply plan_u; [exact U|]. exists m, w, kk. auto.
Qed.
Lemma no_box_g s data how m : gridded data -> offers s data how m -> m = MLinear \/ m = MNearest.
Proof. intros U O. apply offers_g in O; [|exact U]. destruct O as (h & _ & I). destruct s; cbn [methods onto_grid onto_points In] in I; repeat (destruct I as [I|I]; [injection I as _ <-; auto|]); destruct I. Qed.
Lemma methods_g_complete s data how k kwargs m : gridded data -> offers s data how m -> (s = Grid -> k = KNone) -> exists w, plan limit s data how k kwargs = Ok (w, None) /\ by_method limit m kwargs w.
Proof.
  intros U O N. destruct (no_box_g s data how m U O) as [-> | ->].
  - exists Linear. split; [|reflexivity]. apply plan_g; [exact U|]. exists MLinear, Linear. repeat split; auto.
  - exists Nearest. split; [|reflexivity]. apply plan_g; [exact U|]. exists MNearest, Nearest. repeat split; auto.
Qed.
(** errors *)
Lemma not_offered_u s data how k kwargs : ungridded data -> (forall m, ~ offers s data how m) -> plan limit s data how k kwargs = Raises ValueError.
Proof.
  intros U N. assert (M : forall h m, In (h, m) (methods s false) -> str_eqb how (lit h) = false).
  { intros h m I. apply str_eqb_neq_lit. intros ->. apply (N m). apply offers_u; [exact U|]. exists h. auto. }
  destruct s.
  - assert (E1 : str_eqb how [] = false) by (apply (M "" MBin); cbn; auto). assert (E2 := M "bin" MBin ltac:(cbn; auto)). assert (E3 := M "box" MBox ltac:(cbn; auto)).
    destruct data; try contradiction; cbn [plan plan_onto_grid]; rewrite E1, E2, E3; reflexivity.
  - assert (E1 : str_eqb how [] = false) by (apply (M "" MBox); cbn; auto). assert (E3 := M "box" MBox ltac:(cbn; auto)).
    destruct data; try contradiction; cbn [plan plan_onto_points existsb]; rewrite E1, E3; reflexivity.
  - assert (E1 : str_eqb how [] = false) by (apply (M "" MBox); cbn; auto). assert (E3 := M "box" MBox ltac:(cbn; auto)).
    destruct data; try contradiction; cbn [plan plan_onto_points existsb]; rewrite E1, E3; reflexivity.
Qed.
Lemma not_offered_g s data how k kwargs : gridded data -> (forall m, ~ offers s data how m) -> plan limit s data how k kwargs = Raises ValueError.
Proof.
  intros U N. assert (M : forall h m, In (h, m) (methods s true) -> str_eqb how (lit h) = false).
  { intros h m I. apply str_eqb_neq_lit. intros ->. apply (N m). apply offers_g; [exact U|]. exists h. auto. }
  assert (E1 : str_eqb how [] = false) by (apply (M "" MLinear); destruct s; cbn; auto). assert (E2 : str_eqb how (lit "lin") = false) by (apply (M "lin" MLinear); destruct s; cbn; auto). assert (E3 : str_eqb how (lit "nn") = false) by (apply (M "nn" MNearest); destruct s; cbn; auto).
  destruct s; destruct data; try contradiction; cbn [plan plan_onto_grid plan_onto_points existsb]; rewrite ?E1, ?E2, ?E3; try reflexivity; destruct k; reflexivity.
Qed.
Lemma other_sources s data how k kwargs : ~ ungridded data -> ~ gridded data -> plan limit s data how k kwargs = Raises ValueError.
Proof. intros U G. destruct data; try (exfalso; apply U; exact I); try (exfalso; apply G; exact I); destruct s; reflexivity. Qed.
Lemma kernel_refused data how k kwargs : gridded data -> k <> KNone -> plan limit Grid data how k kwargs = Raises ValueError.
Proof. intros G N. destruct data; try contradiction; cbn [plan plan_onto_grid]; destruct k; try reflexivity; congruence. Qed.
Lemma kernel_unread s data how k k' kwargs : gridded data -> s <> Grid -> plan limit s data how k kwargs = plan limit s data how k' kwargs.
Proof. intros G N. destruct s; [congruence| |]; destruct data; try contradiction; reflexivity. Qed.
Lemma limits_unread s data how k kwargs kwargs' m : (gridded data \/ ungridded data) -> offers s data how m -> m <> MBox -> plan limit s data how k kwargs = plan limit s data how k kwargs'.
Proof.
  intros [G|U] O N.
  - destruct s; destruct data; try contradiction; reflexivity.
  - apply offers_u in O; [|exact U]. destruct O as (h & -> & I). destruct s; cbn [methods onto_grid onto_points In] in I; repeat (destruct I as [I|I]; [injection I as <- <-; try congruence|]); try destruct I; destruct data; try contradiction; reflexivity.
Qed.

(** *** names *)
Lemma instead_or a b : instead a b (or a b).
Proof. destruct a; [left; auto|right; split; [discriminate|reflexivity]]. Qed.
Lemma renamed_or a v : renamed a v (or (a_name a) (v_name v), or (a_long a) (v_long v), v_std v, or (a_units a) (v_units v)).
Proof. exists (or (a_name a) (v_name v)), (or (a_long a) (v_long v)), (or (a_units a) (v_units v)). repeat split; try apply instead_or. Qed.
Lemma for_each_map (P : var -> list var -> Prop) (f : var -> list var) (h : var -> var) vs : (forall v, P v (map h (f v))) -> for_each P vs (map h (flat_map f vs)).
Proof.
  intros H. exists (map (fun v => map h (f v)) vs). split.
  - induction vs as [|v vs IH]; cbn [flat_map map concat]; [reflexivity|]. rewrite map_app, IH. reflexivity.
  - induction vs as [|v vs IH]; cbn [map]; constructor; auto.
Qed.
Notation run := (sampled_from limit valid readable show_list version texts).
Lemma run_inv s files data how k mdfms a kwargs r : run s files data how k mdfms a kwargs = Ok r ->
  exists w kk l, plan limit s data how k kwargs = Ok (w, kk) /\ results valid readable s mdfms a data kk = Ok l /\ r = map (add_history (history show_list version files data (fst (texts w kk)) (snd (texts w kk)))) l.
Proof.
  unfold sampled_from. destruct (plan limit s data how k kwargs) as [[w kk]|] eqn:E; cbn [bind fst snd]; [|discriminate]. unfold collocate. destruct (results valid readable s mdfms a data kk) as [l|e] eqn:R; [|destruct e; discriminate]. intros [= <-].
  exists w, kk, l. auto.
Qed.
Lemma shows_history s h v (d : details) n l st u (H : d = (n, l, st, u)) hs : shows s valid readable v (add_history h (mkV n l (if_valid valid st) (match s with Grid => if readable u then u else v_units v | _ => u end) hs)) d.
Proof. subst d. cbn. repeat split; destruct st; reflexivity. Qed.
Lemma group_shows s h v (ds : list details) : Forall2 (shows s valid readable v) (map (add_history h) (map (fun '(n, l, st, u) => mkV n l (if_valid valid st) (match s with Grid => if readable u then u else v_units v | _ => u end) []) ds)) ds.
Proof. induction ds as [|[[[n l] st] u] ds IH]; cbn [map]; constructor; [|exact IH]. cbn. repeat split; destruct st; reflexivity. Qed.
Lemma names_grid_u files data how k mdfms a kwargs r : ungridded data -> run Grid files data how k mdfms a kwargs = Ok r ->
  for_each (fun v g => exists d ds, renamed a v d /\ made_by k d ds /\ Forall2 (shows Grid valid readable v) g ds) (variables data) r.
Proof.
  intros U H. apply run_inv in H. destruct H as (w & kk & l & P & R & ->). apply plan_u in P; [|exact U]. destruct P as (m & w' & k' & E & _ & _ & K). injection E as -> ->. cbn [results] in R. injection R as <-.
  apply for_each_map. intros v. exists (or (a_name a) (v_name v), or (a_long a) (v_long v), v_std v, or (a_units a) (v_units v)). eexists. split; [apply renamed_or|]. split; [apply made; exact K|].
  unfold onto_grid_u. exact (group_shows Grid _ v _).
Qed.
Lemma names_points_u s files data how k mdfms a kwargs r : s <> Grid -> ungridded data -> run s files data how k mdfms a kwargs = Ok r ->
  for_each (fun v g => exists ds, made_by k (own_details v) ds /\ Forall2 (shows s valid readable v) g ds) (variables data) r.
Proof.
  intros S' U H. apply run_inv in H. destruct H as (w & kk & l & P & R & ->). apply plan_u in P; [|exact U]. destruct P as (m & w' & k' & E & _ & _ & K). injection E as -> ->.
  assert (l = flat_map (onto_points_u valid k') (variables data)) as -> by (destruct s; [congruence|cbn [results] in R; congruence..]).
  apply for_each_map. intros v. eexists. split; [apply made; exact K|]. unfold onto_points_u. destruct s; [congruence| |]; [exact (group_shows Points _ v _)|exact (group_shows Positions _ v _)].
Qed.
Lemma names_points_g s files data how k mdfms a kwargs r : s <> Grid -> gridded data -> run s files data how k mdfms a kwargs = Ok r ->
  for_each (fun v g => exists d, renamed a v d /\ Forall2 (shows s valid readable v) g [d]) (variables data) r.
Proof.
  intros S' U H. apply run_inv in H. destruct H as (w & kk & l & P & R & ->). apply plan_g in P; [|exact U]. destruct P as (m & w' & E & _). injection E as -> ->.
  assert (l = flat_map (onto_points_g valid a) (variables data)) as ->.
  { destruct s; [congruence|cbn [results] in R; congruence|]. cbn [results] in R. destruct mdfms; [|congruence]. destruct (variables data); congruence. }
  apply for_each_map. intros v. eexists. split; [apply renamed_or|]. cbn [onto_points_g map]. constructor; [|constructor]. destruct s; [congruence| |]; cbn; repeat split; destruct (v_std v); reflexivity.
Qed.
Lemma names_grid_g files data how k mdfms a kwargs r : gridded data -> run Grid files data how k mdfms a kwargs = Ok r -> Forall2 same_names (variables data) r.
Proof.
  intros U H. apply run_inv in H. destruct H as (w & kk & l & P & R & ->). apply plan_g in P; [|exact U]. destruct P as (m & w' & E & _). injection E as -> ->. cbn [results] in R.
  assert (l = variables data) as ->. { destruct (variables data) as [|v vs]; [discriminate|]. injection R as <-. cbn [onto_grid_g flat_map app]. f_equal. induction vs as [|x vs IH]; cbn; [reflexivity|]. f_equal. exact IH. }
  induction (variables data) as [|v vs IH] eqn:Q; cbn [map]; constructor. { repeat split. }
  clear. induction vs; cbn [map]; constructor; [repeat split|assumption].
Qed.
Lemma complete s files data how k mdfms a kwargs w kk : plan limit s data how k kwargs = Ok (w, kk) -> (gridded data -> s = Grid -> variables data <> []) -> (gridded data -> s = Positions -> mdfms = false) -> exists r, run s files data how k mdfms a kwargs = Ok r.
Proof.
  intros P V1 V2. unfold sampled_from. rewrite P. cbn [bind fst snd]. unfold collocate. assert (exists l, results valid readable s mdfms a data kk = Ok l) as (l & ->); [|eexists; reflexivity].
  destruct kk as [kk|]; [destruct s; eexists; reflexivity|]. assert (G : gridded data).
  { destruct data; try exact I; exfalso; try (destruct s; discriminate); apply plan_u in P; try exact I; destruct P as (? & ? & ? & E & _); discriminate. }
  destruct s; cbn [results]; [|eexists; reflexivity|].
  - specialize (V1 G eq_refl). destruct (variables data); [congruence|eexists; reflexivity].
  - rewrite (V2 G eq_refl). eexists. reflexivity.
Qed.
(** *** histories *)
Lemma with_breaks_6 a b c d e f : with_breaks [a; b; c; d; e; f] = a ++ lit " " ++ newline ++ b ++ lit " " ++ newline ++ c ++ lit " " ++ newline ++ d ++ lit " " ++ newline ++ e ++ lit " " ++ newline ++ f.
Proof. reflexivity. Qed.
Lemma history_lines files data c k : (ungridded data \/ gridded data) -> exists names from, data_names show_list data names /\ data_files data from /\ history show_list version files data c k = with_breaks (lines_of files version names from c k).
Proof.
  intros D. exists (name_of show_list data), (files_of data). split; [destruct data; destruct D as [D|D]; try contradiction; reflexivity|]. split; [destruct data; destruct D as [D|D]; try contradiction; reflexivity|].
  unfold lines_of. rewrite with_breaks_6. unfold history. rewrite <- !app_assoc. reflexivity.
Qed.
Lemma added s files data how k mdfms a kwargs r : run s files data how k mdfms a kwargs = Ok r ->
  exists w kk, plan limit s data how k kwargs = Ok (w, kk) /\ exists names from, data_names show_list data names /\ data_files data from /\
  for_each (fun v g => Forall (fun x => v_history x = earlier s data v ++ [with_breaks (lines_of files version names from (fst (texts w kk)) (snd (texts w kk)))]) g) (variables data) r.
Proof.
  intros H. apply run_inv in H. destruct H as (w & kk & l & P & R & ->). exists w, kk. split; [exact P|].
  assert (D : ungridded data \/ gridded data) by (destruct data; cbn; auto; destruct s; discriminate).
  destruct (history_lines files data (fst (texts w kk)) (snd (texts w kk)) D) as (names & from & N & F & ->). exists names, from. split; [exact N|]. split; [exact F|].
  set (h := with_breaks _). clearbody h.
  assert (G : kk = None <-> gridded data).
  { destruct D as [U|G].
    - apply plan_u in P; [|exact U]. destruct P as (m & w' & k' & E & _). injection E as -> ->. split; [discriminate|]. intros G. destruct data; contradiction.
    - apply plan_g in P; [|exact G]. destruct P as (m & w' & E & _). injection E as -> ->. tauto. }
  destruct kk as [kk|].
  - assert (NG : ~ gridded data) by (intros X; apply G in X; discriminate). assert (EE : forall v, earlier s data v = []) by (intros v; destruct s, data; try reflexivity; exfalso; apply NG; exact I).
    destruct s; cbn [results] in R; injection R as <-; apply for_each_map; intros v; rewrite EE; apply Forall_forall; intros x X; apply in_map_iff in X; destruct X as (y & <- & X);
      [unfold onto_grid_u in X|unfold onto_points_u in X|unfold onto_points_u in X]; apply in_map_iff in X; destruct X as ([[[? ?] ?] ?] & <- & _); reflexivity.
  - pose proof (proj1 G eq_refl) as GG. destruct s.
    + assert (EE : forall v, earlier Grid data v = v_history v) by (intros v; destruct data; try contradiction; reflexivity).
      assert (l = flat_map onto_grid_g (variables data)) as -> by (cbn [results] in R; destruct (variables data); congruence).
      apply for_each_map. intros v. rewrite EE. constructor; [reflexivity|constructor].
    + cbn [results] in R. injection R as <-. apply for_each_map. intros v. constructor; [|constructor]. destruct data; reflexivity.
    + assert (l = flat_map (onto_points_g valid a) (variables data)) as -> by (cbn [results] in R; destruct mdfms; [destruct (variables data)|]; congruence).
      apply for_each_map. intros v. constructor; [|constructor]. destruct data; reflexivity.
Qed.
(** *** collocated_onto *)
Notation onto := (collocated_onto limit valid readable show_list version texts).
Lemma onto_same data s files how k b a kwargs : (ungridded data \/ gridded data) -> onto data s files how k (Some b) a kwargs = run s files data how k b a kwargs.
Proof. intros [D|D]; destruct data; try contradiction; reflexivity. Qed.
Lemma mdfms_unread s files data how k b b' a kwargs : ungridded data \/ s <> Positions -> run s files data how k b a kwargs = run s files data how k b' a kwargs.
Proof.
  intros D. unfold sampled_from. destruct (plan limit s data how k kwargs) as [[w kk]|] eqn:P; [|reflexivity]. cbn [bind fst snd]. unfold collocate.
  replace (results valid readable s b a data kk) with (results valid readable s b' a data kk); [reflexivity|]. destruct D as [U|N].
  - apply plan_u in P; [|exact U]. destruct P as (m & w' & k' & E & _). injection E as -> ->. destruct s; reflexivity.
  - destruct s; [|reflexivity|congruence]. destruct kk; reflexivity.
Qed.
Lemma onto_default data s files how k a kwargs : ungridded data \/ (gridded data /\ s <> Positions) -> onto data s files how k None a kwargs = run s files data how k (default_mdfms s) a kwargs.
Proof.
  intros D. transitivity (run s files data how k true a kwargs); [destruct D as [D|[D _]]; destruct data; try contradiction; reflexivity|]. apply mdfms_unread. tauto.
Qed.
Lemma onto_positions data files how k a kwargs v vs : gridded data -> variables data = v :: vs ->
  (forall r, run Positions files data how k (default_mdfms Positions) a kwargs = Ok r -> onto data Positions files how k None a kwargs = Raises CoordinateNotFoundError).
Proof.
  intros G E r H. apply run_inv in H. destruct H as (w & kk & l & P & _). assert (X : onto data Positions files how k None a kwargs = run Positions files data how k true a kwargs) by (destruct data; try contradiction; reflexivity).
  rewrite X. unfold sampled_from. rewrite P. cbn [bind fst snd]. unfold collocate. apply plan_g in P; [|exact G]. destruct P as (m & w' & Q & _). injection Q as -> ->. cbn [results]. rewrite E. reflexivity.
Qed.
End Collocation.
