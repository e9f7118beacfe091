From Coq Require Import String.
From Verif Require Import Base PyStr FileListModel FileListProofs ProdModel ProdProofs OptModel OptSpec OptProofs Opt2Proofs.
From Coq Require Import List Ascii Lia Arith.
Import ListNotations.
Open Scope list_scope. Open Scope nat_scope. Notation length := List.length.

Section P.
Context {V : Type}.
Variable read : kind -> str -> option V.
Notation opt := (opt V). Notation parser := (parser V). Notation word := (word V). Notation val := (val V). Notation state := (state V). Notation take := (take read). Notation run := (run read). Notation setting := (@setting V).
Variable p : parser.
Hypothesis PR : proper p.

(** *** attributes *)
Lemma get_in {A} (d : list (str * A)) k v : dict_get d k = Some v -> In (k, v) d.
Proof. induction d as [|[k' v'] d IH]; cbn; [discriminate|]. destruct (str_eq_dec k' k); [intros [= ->]; subst; auto|auto]. Qed.
Lemma in_get {A} (d : list (str * A)) k v : NoDup (map fst d) -> In (k, v) d -> dict_get d k = Some v.
Proof. induction d as [|[k' v'] d IH]; cbn; [intros _ []|]. intros N [E|I]; inversion N; subst. { injection E as -> ->. destruct (str_eq_dec k k); congruence. } destruct (str_eq_dec k' k); [|auto]. subst. exfalso. apply H1. apply in_map_iff. exists (k, v). auto. Qed.
Lemma nodup_left {A} (a b : list A) : NoDup (a ++ b) -> NoDup a.
Proof. induction a as [|x a IH]; intros N; [constructor|]. cbn in N. inversion N; subst. constructor; auto. intros I. apply H1. apply in_app_iff. auto. Qed.
Lemma nodup_right {A} (a b : list A) : NoDup (a ++ b) -> NoDup b.
Proof. induction a as [|x a IH]; intros N; auto. cbn in N. inversion N; subst. auto. Qed.
Lemma nodup_apart {A} (a b : list A) x : NoDup (a ++ b) -> In x a -> In x b -> False.
Proof. induction a as [|y a IH]; intros N I J; [destruct I|]. cbn in N. inversion N; subst. destruct I as [->|I]; auto. apply H1. apply in_app_iff. auto. Qed.
Lemma dests_nodup : NoDup (map o_dest (p_options p)).
Proof. pose proof (proper_dests _ PR) as N. apply (nodup_left _ _ N). Qed.
Lemma dest_unique o o' : In o (p_options p) -> In o' (p_options p) -> o_dest o = o_dest o' -> o = o'.
Proof.
  pose proof dests_nodup as N. revert N. induction (p_options p) as [|a l IH]; intros N A B E; [destruct A|]. cbn in N. inversion N; subst.
  destruct A as [->|A], B as [<-|B]; auto; exfalso; apply H1; [rewrite E|rewrite <- E]; apply in_map; auto.
Qed.
Lemma default_get d : default_is p d (dict_get (defaults p) d).
Proof.
  unfold defaults, default_is. pose proof dests_nodup as N. revert N. induction (p_options p) as [|o l IH]; intros N; cbn; [right; split; auto|]. inversion N as [|? ? N1 N2]; subst. specialize (IH N2).
  destruct (str_eq_dec (o_dest o) d) as [E|E].
  - left. exists o. split; auto. split; auto. assert (NI : dict_get (flat_map (fun o => match o_default o with Some v => [(o_dest o, v)] | None => [] end) l) d = None).
    { destruct (dict_get _ d) eqn:G; auto. exfalso. apply get_in in G. apply in_flat_map in G. destruct G as (o' & I & G). destruct (o_default o'); [|destruct G]. destruct G as [G|[]]. injection G as G _. apply N1. rewrite E, <- G. apply in_map. auto. }
    destruct (o_default o) as [v|]; cbn; [|exact NI]. destruct (str_eq_dec (o_dest o) d); congruence.
  - assert (G : dict_get (match o_default o with Some v => [(o_dest o, v)] | None => [] end ++ flat_map (fun o => match o_default o with Some v => [(o_dest o, v)] | None => [] end) l) d = dict_get (flat_map (fun o => match o_default o with Some v => [(o_dest o, v)] | None => [] end) l) d).
    { destruct (o_default o); auto. cbn. destruct (str_eq_dec (o_dest o) d); congruence. }
    rewrite G. destruct IH as [(o' & I & D & W)|[NI W]]; [left; exists o'; auto|right]. split; auto. intros o' [<-|I]; auto.
Qed.

(** *** the settings one after the other *)
Definition inv (l : list (str * val)) (done : list setting) (vals : list (str * val)) : Prop := forall d,
  (exists x, dict_get l d = Some x /\ dict_get vals d = Some x) \/
  dict_get l d = None /\ ((forall s, In s done -> ~ about d s) /\ default_is p d (dict_get vals d) \/
    exists before s after x, done = before ++ s :: after /\ about d s /\ (forall s', In s' after -> ~ about d s') /\ leaves read s (times d done) x /\ dict_get vals d = Some x).
Lemma times_app d a b : times d (a ++ b) = times d a + times (V := V) d b.
Proof. induction a as [|s a IH]; auto. cbn [app times]. rewrite IH. lia. Qed.
Lemma times_none d a : (forall s, In s a -> ~ about d s) -> times (V := V) d a = 0.
Proof. induction a as [|s a IH]; intros H; auto. cbn [times]. rewrite IH; [|intros; apply H; right; auto]. destruct (str_eq_dec _ d) as [E|E]; auto. exfalso. apply (H s (or_introl eq_refl)). exact E. Qed.
Lemma inv_step l done vals s v : inv l done vals -> dict_get l (o_dest (option_of s)) = None -> leaves read s (times (o_dest (option_of s)) (done ++ [s])) v ->
  inv l (done ++ [s]) (dict_set vals (o_dest (option_of s)) v).
Proof.
  intros H NL L d. rewrite dict_get_set. destruct (str_eq_dec (o_dest (option_of s)) d) as [<-|NE].
  - right. split; auto. right. exists done, s, [], v. split; auto. split; [reflexivity|]. split; [intros ? []|]. auto.
  - destruct (H d) as [A|[NL' [[A B]|(before & s0 & after & x & -> & A & B & C & D)]]]; [left; auto|right; split; auto..].
    + left. split; auto. intros s' I. apply in_app_iff in I. destruct I as [I|[<-|[]]]; auto.
    + right. exists before, s0, (after ++ [s]), x. rewrite <- app_assoc. split; auto. split; auto. split; [intros s' I; apply in_app_iff in I; destruct I as [I|[<-|[]]]; auto|]. split; auto.
      match goal with |- leaves read s0 ?n x => replace n with (times d (before ++ s0 :: after)); [exact C|] end. rewrite !times_app. cbn [times]. destruct (str_eq_dec (o_dest (option_of s)) d); [congruence|lia].
Qed.
(** one attribute has one option *)
Lemma about_same s s' : well p s -> well p s' -> o_dest (option_of s) = o_dest (option_of s') -> option_of s = option_of s'.
Proof. intros [A _] [B _] E. apply dest_unique; auto. Qed.
Lemma excluded_spec l done vals ex s : inv l done vals -> Forall (well p) done -> well p s -> (forall o, In o (p_options p) -> dict_get l (o_dest o) = None) ->
  excluded (option_of s) (mkState vals ex) = true <-> exists s', In s' done /\ o_against (option_of s) = Some (o_dest (option_of s')).
Proof.
  intros H W [Io _] NL. unfold excluded. cbn [s_values]. destruct (o_against (option_of s)) as [d|] eqn:E; [|split; [discriminate|intros (s' & _ & E'); discriminate]].
  destruct (proper_against _ PR _ _ Io E) as (o' & Io' & D & A & _). destruct (H d) as [(x & G & _)|[_ [[N DF]|(before & s0 & after & x & -> & AB & NA & L & G)]]].
  - rewrite <- D in G. rewrite NL in G by auto. discriminate.
  - split.
    + intros X. exfalso. destruct DF as [(o2 & I2 & D2 & V2)|[N2 _]]; [|apply (N2 o'); auto]. rewrite V2 in X. destruct (proper_start _ PR o2 I2 0) as [_ P2]. destruct (o_default o2) as [[| | | |[]|n]|] eqn:OD; try discriminate; [congruence|]. destruct (proper_start _ PR o2 I2 n) as [P1 _]. congruence.
    + intros (s' & I & [= ->]). exfalso. apply (N s' I). reflexivity.
  - assert (I0 : In s0 (before ++ s0 :: after)) by (apply in_app_iff; right; left; auto). rewrite Forall_forall in W. pose proof (W s0 I0) as W0.
    assert (EO : option_of s0 = o') by (destruct W0 as [W0 _]; apply dest_unique; auto; unfold about in AB; congruence).
    assert (X : dict_get vals d = Some (VBool true) \/ exists n, dict_get vals d = Some (VCount n)).
    { rewrite G. destruct s0 as [o|o t|o]; cbn [option_of] in EO; subst o; cbn [leaves] in L; destruct W0 as [_ W0]; unfold texts in W0; cbn in W0; destruct A as [A|A]; rewrite A in *; subst; eauto; try discriminate; destruct W0; discriminate. }
    split; intros _; [exists s0; split; auto; unfold about in AB; congruence|]. destruct X as [->|(n & ->)]; reflexivity.
Qed.
Lemma inv_count l done vals d : inv l done vals -> dict_get l d = None -> Forall (well p) done -> (exists o, In o (p_options p) /\ o_dest o = d /\ o_act o = CountUp) ->
  match dict_get vals d with Some (VCount n) => S n | _ => 1 end = S (times d done).
Proof.
  intros H NL W (o & Io & D & A). destruct (H d) as [(x & G & _)|[_ [[N DF]|(before & s0 & after & x & E & AB & NA & L & G)]]]; [congruence|..].
  - rewrite (times_none d done N). destruct DF as [(o2 & I2 & D2 & V2)|[N2 _]]; [|exfalso; apply (N2 o); auto]. rewrite V2. destruct (o_default o2) as [[]|] eqn:OD; try reflexivity. destruct (proper_start _ PR o2 I2 n) as [P1 _]. congruence.
  - assert (I0 : In s0 done) by (rewrite E; apply in_app_iff; right; left; auto). rewrite Forall_forall in W. destruct (W s0 I0) as [W0 W1].
    assert (EO : option_of s0 = o) by (apply dest_unique; auto; unfold about in AB; congruence).
    rewrite G. destruct s0 as [o1|o1 t|o1]; cbn [option_of] in EO; subst o1; cbn [leaves] in L; unfold texts in W1; rewrite A in *; [rewrite L; reflexivity|destruct W1; discriminate|discriminate].
Qed.
Lemma convert_spec k t v : convert read k t = Some v <-> text_means read k t v.
Proof.
  destruct k; cbn.
  1: { split; [intros [= <-]; auto|intros ->; auto]. }
  5: { destruct (existsb (str_eqb t) l) eqn:E.
    - apply existsb_exists in E. destruct E as (y & I & E). apply eqb_iff in E. subst. split; [intros [= <-]; auto|intros [_ ->]; auto].
    - split; [discriminate|]. intros [I _]. exfalso. assert (existsb (str_eqb t) l = true); [|congruence]. apply existsb_exists. exists t. split; auto. apply eqb_iff. auto. }
  all: destruct (read _ t) as [x|]; cbn; split; [intros [= <-]; eauto|intros (y & [= <-] & ->); auto|discriminate|intros (y & E & _); discriminate].
Qed.
(** one setting *)
Lemma take_step l done vals ex s : inv l done vals -> Forall (well p) done -> well p s -> not_help s -> (forall o, In o (p_options p) -> dict_get l (o_dest o) = None) ->
  if excluded (option_of s) (mkState vals ex) then take (option_of s) (text_of s) (mkState vals ex) = Stop Refused
  else (exists v, take (option_of s) (text_of s) (mkState vals ex) = Next (mkState (dict_set vals (o_dest (option_of s)) v) ex) /\ leaves read s (times (o_dest (option_of s)) (done ++ [s])) v) \/
       (take (option_of s) (text_of s) (mkState vals ex) = Stop Refused /\ ~ understood read s).
Proof.
  intros H W WS NH NL. unfold OptModel.take. destruct (excluded _ _) eqn:EX; auto. unfold set_value. cbn [s_values s_extras]. destruct WS as [Io WS]. unfold not_help in NH. rewrite times_app. cbn [times]. destruct (str_eq_dec _ _) as [_|X]; [|congruence].
  destruct s as [o|o t|o]; cbn [option_of text_of leaves understood] in *.
  - left. destruct (o_act o) eqn:A; try congruence; try (eexists; split; reflexivity); [|exfalso; apply WS; unfold texts; auto..].
    eexists. split; [reflexivity|]. rewrite (inv_count l done vals (o_dest o) H (NL o Io) W) by eauto. f_equal. lia.
  - destruct (convert read (o_kind o) t) as [v|] eqn:C.
    + left. exists v. apply convert_spec in C. split; auto. destruct WS as [-> | ->]; reflexivity.
    + right. split; [destruct WS as [-> | ->]; reflexivity|]. intros (v & L). cbn in L. apply convert_spec in L. congruence.
  - left. exists VNone. rewrite WS. auto.
Qed.
(** all of them *)
Lemma leaves_any s n v : leaves read s n v -> understood read s.
Proof. unfold understood. destruct s as [o|o t|o]; cbn; [destruct (o_act o); intros; try contradiction; eauto|eauto|eauto]. Qed.
Lemma apply_spec l ex : (forall o, In o (p_options p) -> dict_get l (o_dest o) = None) -> forall ss done vals, inv l done vals -> Forall (well p) done -> Forall (well p) ss -> Forall not_help ss -> compatible done ->
  match apply_all read ss (mkState vals ex) with
  | Next st => s_extras st = ex /\ inv l (done ++ ss) (s_values st) /\ Forall (understood read) ss /\ compatible (done ++ ss)
  | Stop r => r = Refused /\ ~ (Forall (understood read) ss /\ compatible (done ++ ss))
  end.
Proof.
  intros NL. induction ss as [|s ss IH]; intros done vals H W WS NH C; cbn [apply_all]; [rewrite app_nil_r; auto|].
  inversion WS as [|? ? W1 W2]; subst. inversion NH as [|? ? N1 N2]; subst. pose proof (take_step l done vals ex s H W W1 N1 NL) as T. pose proof (excluded_spec l done vals ex s H W W1 NL) as X.
  destruct (excluded (option_of s) (mkState vals ex)).
  - rewrite T. split; auto. intros [_ CC]. destruct (proj1 X eq_refl) as (s' & I & E). apply (CC s s'); auto; apply in_app_iff; [right; left; auto|left; auto].
  - destruct T as [(v & T & L)|(T & NU)]; rewrite T.
    + assert (C' : compatible (done ++ [s])).
      { intros a b A B. apply in_app_iff in A, B. destruct A as [A|[<-|[]]], B as [B|[<-|[]]]; [apply C; auto|..]; intros E.
        - rewrite Forall_forall in W. destruct (W a A) as [Ia _]. destruct W1 as [Is W1]. destruct (proper_against _ PR _ _ Ia E) as (o' & Io & D & _ & E'). assert (o' = option_of s) by (apply dest_unique; auto). subst o'.
          assert (Y : false = true) by (apply X; exists a; auto). discriminate.
        - assert (Y : false = true) by (apply X; exists b; auto). discriminate.
        - destruct W1 as [Is _]. apply (proper_other _ PR _ Is E). }
      specialize (IH (done ++ [s]) (dict_set vals (o_dest (option_of s)) v)). rewrite <- app_assoc in IH. cbn [app] in IH. specialize (IH ltac:(apply inv_step; auto; apply NL; apply W1) ltac:(apply Forall_app; auto) W2 N2 C').
      destruct (apply_all read ss _) as [st|r].
      * destruct IH as (A & B & D & E). split; auto. split; auto. split; auto. constructor; auto. eapply leaves_any; eauto.
      * destruct IH as [-> A]. split; auto. intros [U CC]. apply A. inversion U; auto.
    + split; auto. intros [U _]. inversion U; auto.
Qed.

(** *** the arguments *)
Fixpoint set_all (vals : list (str * val)) (l : list (str * val)) : list (str * val) := match l with [] => vals | (d, v) :: l => set_all (dict_set vals d v) l end.
Lemma shared_length ps args l : shared (V := V) ps args l -> length ps <= length args /\ ((forall d, ~ In (d, AtLeastOne) ps) -> length ps = length args) /\ map fst l = map fst ps.
Proof.
  induction 1 as [|d a ps args l H IH|d a ps args l H IH|d g ps args l G H IH]; cbn; auto.
  - destruct IH as (A & B & C). split; [lia|]. split; [|congruence]. intros N. f_equal. apply B. intros d' I. apply (N d'). right. auto.
  - destruct IH as (A & B & C). split; [lia|]. split; [|congruence]. intros N. f_equal. apply B. intros d' I. apply (N d'). right. auto.
  - destruct IH as (A & B & C). rewrite app_length. destruct g; [congruence|]. cbn. split; [lia|]. split; [|congruence]. intros N. exfalso. apply (N d). left. auto.
Qed.
Definition many_once (ps : list (str * many)) : Prop := forall a d b, ps = a ++ (d, AtLeastOne) :: b -> forall d', ~ In (d', AtLeastOne) (a ++ b).
Lemma many_once_tail x ps : many_once (x :: ps) -> many_once ps.
Proof. intros H a d b E d' I. apply (H (x :: a) d b ltac:(rewrite E; reflexivity) d'). right. auto. Qed.
Lemma distribute_shared ps args l : shared ps args l -> many_once ps -> forall vals ex, distribute ps args (mkState vals ex) = (Next (mkState (set_all vals l) ex), []).
Proof.
  induction 1 as [|d a ps args l H IH|d a ps args l H IH|d g ps args l G H IH]; intros M vals ex; [reflexivity|..]; pose proof (many_once_tail _ _ M) as M'.
  - cbn [distribute]. unfold set_value. cbn [s_values s_extras]. rewrite (IH M'). reflexivity.
  - cbn [distribute]. unfold set_value. cbn [s_values s_extras]. rewrite (IH M'). reflexivity.
  - assert (LE : length ps = length args). { apply (shared_length _ _ _ H). intros d' I. apply (M [] d ps eq_refl d'). exact I. }
    assert (E : forall (x : list str), x = g ++ args -> distribute ((d, AtLeastOne) :: ps) x (mkState vals ex) = (Next (mkState (set_all vals ((d, VTexts g) :: l)) ex), [])).
    2: { apply E. reflexivity. }
    intros x Ex. destruct x as [|a x]; [destruct g; [congruence|discriminate]|]. cbn [distribute]. unfold set_value. rewrite Ex, app_length, LE, Nat.add_sub, firstn_app, Nat.sub_diag, firstn_all, skipn_app, skipn_all, Nat.sub_diag. cbn [firstn skipn app s_values s_extras]. rewrite app_nil_r, (IH M'). reflexivity.
Qed.
Lemma distribute_next ps : forall args (st : state), exists st' rest, distribute ps args st = (Next st', rest) /\ s_extras st' = s_extras st.
Proof.
  induction ps as [|[d m] ps IH]; intros args st; [exists st, args; auto|]. destruct args as [|a args]; [destruct m; exists st, []; auto|].
  assert (G : forall v args', exists st' rest, distribute ps args' (mkState (dict_set (s_values st) d v) (s_extras st)) = (Next st', rest) /\ s_extras st' = s_extras st).
  { intros v args'. destruct (IH args' (mkState (dict_set (s_values st) d v) (s_extras st))) as (st' & rest & A & B). eauto. }
  destruct m; cbn [distribute]; unfold set_value; apply G.
Qed.
Lemma distribute_all ps : many_once ps -> forall args (st st' : state), length ps <= length args -> distribute ps args st = (Next st', []) -> exists l, shared (V := V) ps args l.
Proof.
  induction ps as [|[d m] ps IH]; intros M args st st' L E; [cbn in E; injection E as _ ->; exists []; constructor|]. destruct args as [|a args]; [cbn in L; lia|]. cbn in L. pose proof (many_once_tail _ _ M) as M'.
  destruct m; cbn [distribute] in E; unfold set_value in E.
  - destruct (IH M' args _ _ ltac:(lia) E) as (l & S). exists ((d, VText a) :: l). constructor. exact S.
  - destruct (IH M' args _ _ ltac:(lia) E) as (l & S). exists ((d, VTexts [a]) :: l). constructor. exact S.
  - remember (a :: args) as x. set (n := length x - length ps) in *. assert (LS : length (skipn n x) = length ps). { rewrite skipn_length. unfold n. assert (length x = S (length args)) by (subst; reflexivity). lia. }
    destruct (IH M' (skipn n x) _ _ ltac:(lia) E) as (l & S). exists ((d, VTexts (firstn n x)) :: l). rewrite <- (firstn_skipn n x) at 1. constructor; auto.
    intros F. apply (f_equal (@length _)) in F. rewrite firstn_length in F. cbn in F. assert (length x = Datatypes.S (length args)) by (subst; reflexivity). unfold n in F. lia.
Qed.
End P.
