(** Proofs for C71: lookups, words, the variable selector. *)
From Coq Require Import String.
From Verif Require Import Base PyStr QBase DateModel DateProofs FileListModel FileListProofs AeroModel UngrModel UngrSpec RafModel RafSpec.
From Coq Require Import List Lia.
Import ListNotations.
Open Scope string_scope. Open Scope list_scope. Open Scope nat_scope. Notation length := List.length.

Lemma find_app {A} (p : A -> bool) l m : find p (l ++ m) = match find p l with Some x => Some x | None => find p m end.
Proof. induction l as [|x l IH]; cbn; auto. destruct (p x); auto. Qed.
Lemma lowered_get l : forall d k, dict_get (fold_left (fun d (kv : str * attr) => dict_set d (lower (fst kv)) (snd kv)) l d) k =
  match find (fun kv => str_eqb (lower (fst kv)) k) (rev l) with Some kv => Some (snd kv) | None => dict_get d k end.
Proof.
  induction l as [|kv l IH]; intros d k; [reflexivity|]. cbn [fold_left rev]. rewrite IH, find_app. destruct (find _ (rev l)); auto. rewrite dict_get_set. cbn [find]. unfold str_eqb. destruct (str_eq_dec (lower (fst kv)) k); auto.
Qed.
Lemma attr_of_eq f n : attr_of f n = attribute f n.
Proof. unfold attr_of, lowered, attribute. rewrite lowered_get. destruct (find _ _); reflexivity. Qed.
Lemma dict_get_find {V} (l : list (str * V)) n : dict_get l n = option_map snd (find (fun kv => str_eqb (fst kv) n) l).
Proof. induction l as [|[k v] l IH]; cbn; auto. unfold str_eqb. destruct (str_eq_dec k n); cbn; auto. Qed.
Lemma var_of_eq f n : var_of f n = variable f n.
Proof. apply dict_get_find. Qed.
Lemma has_attr_true f n : has_attr f n = true <-> attribute f n <> None.
Proof. unfold has_attr. rewrite attr_of_eq. destruct (attribute f n); split; congruence. Qed.
Lemma has_attr_false f n : has_attr f n = false <-> attribute f n = None.
Proof. unfold has_attr. rewrite attr_of_eq. destruct (attribute f n); split; congruence. Qed.
Lemma has_var_true f n : has_var f n = true <-> variable f n <> None.
Proof. unfold has_var. rewrite var_of_eq. destruct (variable f n); split; congruence. Qed.
Lemma has_var_false f n : has_var f n = false <-> variable f n = None.
Proof. unfold has_var. rewrite var_of_eq. destruct (variable f n); split; congruence. Qed.

(** ** words *)
Lemma words_blank c s : is_blank c = true -> words (c :: s) = words s.
Proof. intros H. unfold words. cbn [words_from]. destruct (words_from s) as [w ws]. rewrite H. reflexivity. Qed.
Lemma words_blanks a s : all_blank a -> words (a ++ s) = words s.
Proof. induction 1 as [|c a H F IH]; auto. cbn [app]. rewrite words_blank; auto. Qed.
Lemma words_word w : no_blank w -> forall r, at_edge r -> words_from (w ++ r) = (w, words r).
Proof.
  induction 1 as [|c w H F IH]; intros r E.
  - cbn [app]. unfold words. destruct E as [->|(c & r' & -> & B)]; [reflexivity|]. cbn [words_from]. destruct (words_from r'). rewrite B. reflexivity.
  - cbn [app words_from]. rewrite (IH r E), H. reflexivity.
Qed.
Theorem words_unique s ws : words_of s ws -> words s = ws.
Proof.
  induction 1 as [s B|a w r ws A N NB E W IH].
  - rewrite <- (app_nil_r s), words_blanks; auto.
  - rewrite words_blanks by auto. unfold words. rewrite words_word by auto. rewrite IH. destruct w; [elim N; reflexivity|reflexivity].
Qed.
Theorem words_exist s : words_of s (words s).
Proof.
  assert (G : exists a r, s = a ++ r /\ no_blank a /\ at_edge r /\ fst (words_from s) = a /\ words_of r (snd (words_from s))).
  { induction s as [|c s (a & r & -> & N & E & Ea & W)].
    - exists [], []. repeat split; try constructor. auto. constructor.
    - cbn [words_from]. destruct (words_from (a ++ r)) as [w ws]. cbn in Ea, W. subst w. destruct (is_blank c) eqn:B.
      + exists [], (c :: a ++ r). split; [reflexivity|]. split; [constructor|]. split; [right; exists c, (a ++ r); auto|]. split; [reflexivity|]. cbn [snd]. destruct a as [|a0 a].
        * change (([] : str) ++ r) with r. inversion W as [s B'|b w r' ws' B' W1 W2 W3 W4]; subst; [constructor; constructor; auto|]. apply (a_word (c :: b) w r' ws'); auto. constructor; auto.
        * apply (a_word [c] (a0 :: a) r ws); auto; [repeat constructor; auto|discriminate].
      + exists (c :: a), r. repeat split; auto. constructor; auto. }
  destruct G as (a & r & -> & N & E & Ea & W). unfold words. destruct (words_from (a ++ r)) as [w ws]. cbn in Ea, W. subst w. destruct a as [|c a]; [exact W|]. apply (a_word [] (c :: a) r ws); auto; [constructor|discriminate].
Qed.

Section Raf.
Variable float_of : str -> option Q.
Variable convert : str -> option attr -> res (Q -> Q).
Notation reads := (reads float_of). Notation reads_height := (reads_height float_of).
Lemma parse_lat_lon_ok a q : parse_lat_lon float_of a = Ok q <-> reads a q.
Proof.
  split.
  - destruct a as [s|x]; cbn; [|intros [= <-]; constructor]. destruct (float_of s) as [x|] eqn:F; [intros [= <-]; apply a_text; auto|]. pose proof (words_exist s) as W. destruct (words s) as [|w ws]; [discriminate|].
    destruct (float_of w) eqn:Fw; [|discriminate]. intros [= <-]. eapply a_first_word; eauto.
  - intros H. destruct H as [q|s q F|s w ws q F W Fw]; cbn; auto; rewrite F; auto. rewrite (words_unique _ _ W), Fw. reflexivity.
Qed.
Lemma parse_altitude_ok a q : parse_altitude float_of a = Ok q <-> reads_height a q.
Proof.
  split.
  - destruct a as [s|x]; cbn; [|intros [= <-]; constructor; constructor]. destruct (float_of s) as [x|] eqn:F; [intros [= <-]; constructor; apply a_text; auto|]. pose proof (words_exist s) as W. destruct (words s) as [|w ws]; [discriminate|].
    destruct (float_of w) eqn:Fw; intros [= <-]; [constructor; eapply a_first_word; eauto|eapply unreadable; eauto].
  - intros H. destruct H as [a q H|s w ws F W Fw].
    + destruct H as [q|s q F|s w ws q F W Fw]; cbn; auto; rewrite F; auto. rewrite (words_unique _ _ W), Fw. reflexivity.
    + cbn. rewrite F, (words_unique _ _ W), Fw. reflexivity.
Qed.
Definition has_reading (rd : attr -> Q -> Prop) (n : str) (g : ncfile) (q : Q) : Prop := exists a, attribute g n = Some a /\ rd a q.
Lemma attr_reading (rd : attr -> Q -> Prop) parse n g q : (forall a q, parse a = Ok q <-> rd a q) -> bind (attr_or_key_error g n) parse = Ok q <-> has_reading rd n g q.
Proof.
  intros H. unfold attr_or_key_error, has_reading. rewrite attr_of_eq. destruct (attribute g n) as [a|]; cbn [bind]; [rewrite H; split; [intros; exists a; auto|intros (a' & [= <-] & R); auto]|split; [discriminate|intros (a & E & _); discriminate]].
Qed.
Lemma map_reading (rd : attr -> Q -> Prop) parse n files l : (forall a q, parse a = Ok q <-> rd a q) -> map_res (fun g => bind (attr_or_key_error g n) parse) files = Ok l <-> Forall2 (has_reading rd n) files l.
Proof.
  intros H. rewrite map_res_ok. split; intros F; (induction F as [|g q gs qs H1 F IH]; [constructor|constructor; auto; apply (attr_reading _ _ _ _ _ H); auto]).
Qed.
Lemma coordinate_variable_ok f a v : coordinate_variable f a = Ok v <-> points_to f a v.
Proof.
  unfold coordinate_variable, points_to. rewrite attr_of_eq. destruct (attribute f a) as [[s|q]|]; [|split; [discriminate|intros [E _]; discriminate]..].
  destruct (has_var f s) eqn:H.
  - apply has_var_true in H. split; [intros [= <-]; auto|intros [[= <-] _]; auto].
  - apply has_var_false in H. split; [discriminate|intros [[= <-] X]; congruence].
Qed.

(** what a selector says, for all files *)
Definition serves (files : list ncfile) (s : selector) (t : str) (la lo al : source) (p : list str) : Prop :=
  s_time s = t /\ opt_list (s_pressure s) = p /\
  ((exists n m, la = In_variable n /\ lo = In_variable m /\ s_station s = None /\ s_lat s = Some n /\ s_lon s = Some m) \/
   (la = In_attribute (lit "Station_Lat") /\ lo = In_attribute (lit "Station_Lon") /\ s_lat s = None /\ s_lon s = None /\
    exists lats lons, s_station s = Some (lats, lons) /\ Forall2 (has_reading reads (lit "Station_Lat")) files lats /\ Forall2 (has_reading reads (lit "Station_Lon")) files lons)) /\
  ((exists n, al = In_variable n /\ s_alt s = Some n /\ s_altitude s = None) \/
   (al = In_attribute (lit "Station_Altitude") /\ s_alt s = None /\ exists l, s_altitude s = Some l /\ Forall2 (has_reading reads_height (lit "Station_Altitude")) files l) \/
   (al = Sea_level /\ s_alt s = None /\ s_altitude s = Some (map (fun _ => 0%Q) files))).
Definition stamped (files : list ncfile) (s : selector) : Prop :=
  match s_stamps s with Some l => Forall2 (fun g a => attribute g (lit "Time_Stamp_Info") = Some a) files l | None => forall f r, files = f :: r -> attribute f (lit "Time_Stamp_Info") = None end.
Definition timed (files : list ncfile) (s : selector) : Prop := forall f r, files = f :: r -> exists v, variable f (s_time s) = Some v /\ s_time_dims s = v_dims v.

(** the part that finds the positions *)
Definition positions (files : list ncfile) (f : ncfile) : res selector :=
  if has_attr f (lit "Time_Coordinate") then
    bind (coordinate_variable f (lit "Time_Coordinate")) (fun t =>
    if has_attr f (lit "Latitude_Coordinate") then lat_lon_specified files f t
    else if has_attr f (lit "Station_Lat") then stationary float_of files f t
    else Raises InvalidVariableError)
  else if has_attr f (lit "Coordinates") then best_coordinates f
  else Raises InvalidVariableError.
Lemma positions_sound files f s : positions files f = Ok s -> exists t la lo al, described f t la lo al /\ serves files s t la lo al [].
Proof.
  unfold positions. destruct (has_attr f (lit "Time_Coordinate")) eqn:HT.
  - destruct (coordinate_variable f (lit "Time_Coordinate")) as [t|] eqn:CT; [|discriminate]. apply coordinate_variable_ok in CT. cbn [bind].
    destruct (has_attr f (lit "Latitude_Coordinate")) eqn:HL.
    + unfold lat_lon_specified. destruct (coordinate_variable f (lit "Latitude_Coordinate")) as [la|] eqn:CL; [|discriminate]. apply coordinate_variable_ok in CL. cbn [bind].
      destruct (coordinate_variable f (lit "Longitude_Coordinate")) as [lo|] eqn:CO; [|discriminate]. apply coordinate_variable_ok in CO. cbn [bind].
      destruct (has_attr f (lit "Vertical_Coordinate")) eqn:HV.
      * destruct (coordinate_variable f (lit "Vertical_Coordinate")) as [al|] eqn:CA; [|discriminate]. apply coordinate_variable_ok in CA. cbn [bind]. intros [= <-].
        exists t, (In_variable la), (In_variable lo), (In_variable al). split; [apply aeroplane; auto|]. split; [reflexivity|]. split; [reflexivity|]. split; [left; exists la, lo; auto 6|left; exists al; auto].
      * apply has_attr_false in HV. intros [= <-]. exists t, (In_variable la), (In_variable lo), Sea_level. split; [apply ship; auto|]. split; [reflexivity|]. split; [reflexivity|]. split; [left; exists la, lo; auto 6|right; right; auto].
    + apply has_attr_false in HL. destruct (has_attr f (lit "Station_Lat")) eqn:HS; [|discriminate]. apply has_attr_true in HS. unfold stationary.
      destruct (map_res _ files) as [lats|] eqn:ML; [|discriminate]. apply (map_reading _ _ _ _ _ parse_lat_lon_ok) in ML. cbn [bind]. destruct (has_attr f (lit "Station_Lon")) eqn:HO; [|discriminate]. apply has_attr_true in HO. cbn [negb].
      destruct (map_res _ files) as [lons|] eqn:MO; [|discriminate]. apply (map_reading _ _ _ _ _ parse_lat_lon_ok) in MO. cbn [bind]. destruct (has_attr f (lit "Station_Altitude")) eqn:HA.
      * apply has_attr_true in HA. destruct (map_res _ files) as [alts|] eqn:MA; [|discriminate]. apply (map_reading _ _ _ _ _ parse_altitude_ok) in MA. cbn [bind]. intros [= <-].
        exists t, (In_attribute (lit "Station_Lat")), (In_attribute (lit "Station_Lon")), (In_attribute (lit "Station_Altitude")). split.
        { pose proof (station f t CT HL HS HO) as D. destruct (attribute f (lit "Station_Altitude")); [exact D|congruence]. }
        split; [reflexivity|]. split; [reflexivity|]. split; [right; repeat split; auto; exists lats, lons; auto|right; left; repeat split; auto; exists alts; auto].
      * apply has_attr_false in HA. cbn [bind]. intros [= <-]. exists t, (In_attribute (lit "Station_Lat")), (In_attribute (lit "Station_Lon")), Sea_level. split.
        { pose proof (station f t CT HL HS HO) as D. rewrite HA in D. exact D. }
        split; [reflexivity|]. split; [reflexivity|]. split; [right; repeat split; auto; exists lats, lons; auto|right; right; auto].
  - apply has_attr_false in HT. destruct (has_attr f (lit "Coordinates")) eqn:HC; [|discriminate]. unfold best_coordinates. rewrite attr_of_eq. destruct (attribute f (lit "Coordinates")) as [[x|]|] eqn:AC; [|discriminate..].
    pose proof (words_exist x) as W. destruct (words x) as [|lo [|la [|al [|t [|]]]]]; try discriminate. destruct (forallb (has_var f) [lo; la; al; t]) eqn:HF; [|discriminate]. intros [= <-].
    exists t, (In_variable la), (In_variable lo), (In_variable al). split.
    { eapply listed; eauto. intros n Hn. apply has_var_true. rewrite forallb_forall in HF. auto. }
    split; [reflexivity|]. split; [reflexivity|]. split; [left; exists la, lo; auto 6|left; exists al; auto].
Qed.
Theorem select_sound f rest s : select float_of (f :: rest) = Ok s ->
  exists t la lo al p, described f t la lo al /\ pressure_named f p /\ serves (f :: rest) s t la lo al p /\ stamped (f :: rest) s /\ timed (f :: rest) s.
Proof.
  unfold select. destruct ((length (f_vars f) =? 0) || (length (f_attrs f) =? 0)); [discriminate|]. fold (positions (f :: rest) f).
  destruct (positions (f :: rest) f) as [s0|] eqn:P; [|discriminate]. apply positions_sound in P. destruct P as (t & la & lo & al & D & S1 & S2 & S3 & S4). cbn [bind].
  destruct (if has_attr f (lit "Time_Stamp_Info") then _ else _) as [stamps|] eqn:ST; [|discriminate]. cbn [bind]. destruct (var_of f (s_time s0)) as [v|] eqn:V; [|discriminate]. cbn [bind]. rewrite var_of_eq in V. intros [= <-].
  exists t, la, lo, al, (opt_list (if has_var f (lit "PSXC") then Some (lit "PSXC") else if has_var f (lit "PRE") then Some (lit "PRE") else None)). split; [exact D|]. split; [|split; [split; [exact S1|split; [reflexivity|split; [exact S3|exact S4]]]|]].
  - unfold pressure_named. cbn [s_pressure]. destruct (has_var f (lit "PSXC")) eqn:H1; [left; apply has_var_true in H1; auto|]. apply has_var_false in H1. destruct (has_var f (lit "PRE")) eqn:H2; [right; left; apply has_var_true in H2; auto|].
    apply has_var_false in H2. right; right; auto.
  - split; [|intros g r [= <- <-]; exists v; auto]. unfold stamped. cbn [s_stamps]. destruct (has_attr f (lit "Time_Stamp_Info")) eqn:HS.
    + destruct (map_res (fun g => attr_or_key_error g (lit "Time_Stamp_Info")) (f :: rest)) as [l|] eqn:ML; [|discriminate]. injection ST as <-. apply map_res_ok in ML. clear - ML. induction ML as [|g a gs l H F IH]; constructor; auto.
      unfold attr_or_key_error in H. rewrite attr_of_eq in H. destruct (attribute g _); congruence.
    + injection ST as <-. intros g r [= <- <-]. apply has_attr_false. auto.
Qed.
End Raf.
