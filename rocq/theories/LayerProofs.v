(** Proofs for C78. *)
From Coq Require Import String.
From Verif Require Import Base PyStr FileListModel FileListProofs LayerModel LayerSpec.

Lemma get_set : forall (d : kdict) k v k', dict_get (dict_set d k v) k' = if str_eq_dec k k' then Some v else dict_get d k'.
Proof. intros d k v k'. induction d as [|[a b] d IH]; cbn; [destruct (str_eq_dec k k'); reflexivity|]. destruct (str_eq_dec a k) as [->|N]; cbn; [destruct (str_eq_dec k k'); reflexivity|]. rewrite IH. destruct (str_eq_dec a k') as [->|N']; [|reflexivity]. destruct (str_eq_dec k k'); [congruence|reflexivity]. Qed.
Lemma get_none : forall (d : kdict) k, ~ In k (map fst d) -> dict_get d k = None.
Proof. induction d as [|[a b] d IH]; cbn; intros k N; [reflexivity|]. destruct (str_eq_dec a k) as [->|_]; [exfalso; auto|]. apply IH. auto. Qed.
Lemma update_get : forall b a k, is_dict b -> dict_get (update a b) k = match dict_get b k with Some v => Some v | None => dict_get a k end.
Proof.
  induction b as [|[x v] b IH]; intros a k N; [reflexivity|]. inversion N as [|y l NI N']; subst. unfold update in *. cbn [fold_left fst snd dict_get]. rewrite (IH _ _ N'). rewrite get_set. destruct (str_eq_dec x k) as [->|NE]; [|reflexivity].
  rewrite (get_none b k NI). reflexivity.
Qed.
Lemma merged_get : forall a b k, is_dict a -> is_dict b -> dict_get (update [] (a ++ b)) k = own_or_command b a k.
Proof.
  intros a b k A B. unfold update. rewrite fold_left_app. change (dict_get (update (update [] a) b) k = own_or_command b a k). rewrite (update_get b _ k B), (update_get a [] k A). unfold own_or_command. destruct (dict_get b k); [reflexivity|]. destruct (dict_get a k); reflexivity.
Qed.
Lemma without_get : forall d k k', dict_get (without d k) k' = if str_eq_dec k k' then None else dict_get d k'.
Proof.
  induction d as [|[a v] d IH]; intros k k'; [cbn; destruct (str_eq_dec k k'); reflexivity|]. unfold without in *. cbn [filter fst dict_get]. destruct (str_eqb a k) eqn:E; cbn [negb dict_get].
  - apply str_eqb_eq in E. subst. rewrite IH. destruct (str_eq_dec k k'); reflexivity.
  - rewrite IH. destruct (str_eq_dec a k') as [->|N]; [|reflexivity]. destruct (str_eq_dec k k') as [->|]; [|reflexivity]. rewrite str_eqb_refl in E. discriminate.
Qed.
Lemma pop_get : forall d k v k', dict_get (snd (pop d k v)) k' = if str_eq_dec k k' then None else dict_get d k'.
Proof. intros. apply without_get. Qed.
Lemma has_false : forall d k, has d k = false <-> dict_get d k = None.
Proof. intros d k. unfold has. destruct (dict_get d k); split; congruence. Qed.
Lemma clash_false : forall ks d, (forall k, In k ks -> dict_get d k = None) -> clash ks d = false.
Proof. intros ks d. unfold clash. induction ks as [|k ks IH]; intros H; [reflexivity|]. cbn. rewrite (proj2 (has_false d k) (H k (or_introl eq_refl))), IH; [reflexivity|]. intros x I. apply H. right. exact I. Qed.
Lemma is_text_iff : forall v s, is_text v s = true <-> v = VText s.
Proof. intros [|t|n] s; cbn; split; try discriminate; try congruence; intros H; [apply str_eqb_eq in H; congruence|]. injection H as ->. apply str_eqb_refl. Qed.

Section Layers.
Context {D : Type}.
Variable name : D -> str.
Variable draw : list (call D) -> call D -> option exn.
Variable draw_taylor : tcall D -> option exn.

(** the call made for one layer *)
Definition layer_call (kwargs : kdict) (d : D) (y : pv) (o : kdict) (how : pv) : call D :=
  let kw := update [] (kwargs ++ o) in let '(how, kw) := pop kw (lit "type") how in let '(label, kw) := pop kw (lit "label") (VText (name d)) in mkCall d how None ((lit "yaxis", y) :: (lit "label", label) :: kw).
Fixpoint layer_calls (kwargs : kdict) (data : list D) (y : pv) (opts : list kdict) (how : pv) : list (call D) :=
  match data, opts with d :: data, o :: opts => let c := layer_call kwargs d y o how in c :: layer_calls kwargs data y opts (c_how c) | _, _ => [] end.

Lemma layer_call_ok : forall kwargs d y o how, is_dict kwargs -> is_dict o -> dict_get kwargs (lit "type") = None ->
  drawn_as name d y (match dict_get o (lit "type") with Some v => v | None => how end) o kwargs (layer_call kwargs d y o how).
Proof.
  intros kwargs d y o how K O T. unfold layer_call. cbn [pop]. split; [reflexivity|]. split; [cbn [c_how]; rewrite (merged_get _ _ _ K O); unfold own_or_command; rewrite T; destruct (dict_get o (lit "type")); reflexivity|]. split; [reflexivity|].
  split; [reflexivity|]. cbn [c_kw].
  assert (G : forall k, k <> lit "type" -> k <> lit "label" -> dict_get (without (without (update [] (kwargs ++ o)) (lit "type")) (lit "label")) k = own_or_command o kwargs k).
  { intros k N1 N2. rewrite !without_get. destruct (str_eq_dec (lit "label") k) as [E|_]; [congruence|]. destruct (str_eq_dec (lit "type") k) as [E|_]; [congruence|]. apply merged_get; assumption. }
  split.
  - cbn [dict_get]. destruct (str_eq_dec (lit "yaxis") (lit "label")) as [E|_]; [discriminate E|]. destruct (str_eq_dec (lit "label") (lit "label")) as [_|N]; [|congruence]. f_equal. rewrite without_get. destruct (str_eq_dec (lit "type") (lit "label")) as [E|_]; [discriminate E|].
    rewrite (merged_get _ _ _ K O). destruct (own_or_command o kwargs (lit "label")); reflexivity.
  - split.
    + cbn [dict_get]. destruct (str_eq_dec (lit "yaxis") (lit "type")) as [E|_]; [discriminate E|]. destruct (str_eq_dec (lit "label") (lit "type")) as [E|_]; [discriminate E|]. rewrite !without_get. destruct (str_eq_dec (lit "label") (lit "type")); [reflexivity|].
      destruct (str_eq_dec (lit "type") (lit "type")); congruence.
    + intros k N. cbn [dict_get]. destruct (str_eq_dec (lit "yaxis") k) as [E|_]; [exfalso; apply N; left; exact E|]. destruct (str_eq_dec (lit "label") k) as [E|NL]; [exfalso; apply N; right; left; exact E|]. apply G; [intros ->; apply N; right; right; left; reflexivity|congruence].
Qed.
Lemma layer_clash : forall kwargs o, is_dict kwargs -> is_dict o -> free_of reserved kwargs -> free_of reserved o -> forall h n,
  clash [lit "data"; lit "how"; lit "ax"; lit "yaxis"] (snd (pop (snd (pop (update [] (kwargs ++ o)) (lit "type") h)) (lit "label") n)) = false.
Proof.
  intros kwargs o K O FK FO h n. apply clash_false. intros k I. rewrite !pop_get. destruct (str_eq_dec (lit "label") k); [reflexivity|]. destruct (str_eq_dec (lit "type") k); [reflexivity|]. rewrite (merged_get _ _ _ K O). unfold own_or_command.
  assert (exists s, In s reserved /\ k = lit s) as (s & Is & ->). { unfold reserved. destruct I as [<-|[<-|[<-|[<-|[]]]]]; [exists "data"%string|exists "how"%string|exists "ax"%string|exists "yaxis"%string]; split; auto; cbn; auto. }
  rewrite (FO s Is), (FK s Is). reflexivity.
Qed.
(** overlay draws the calls *)
Lemma overlay_ok : forall kwargs y, is_dict kwargs -> free_of reserved kwargs -> forall data opts how ax, length opts = length data -> Forall is_dict opts -> Forall (free_of reserved) opts ->
  let new := layer_calls kwargs data y opts how in
  (overlay name draw data (map (fun _ => y) data) opts how ax kwargs = Ok (match new with [] => ax | _ => Some (of_ax ax ++ new) end) /\ forall k c, nth_error new k = Some c -> draw (of_ax ax ++ firstn k new) c = None) \/
  exists k c e, nth_error new k = Some c /\ draw (of_ax ax ++ firstn k new) c = Some e /\ overlay name draw data (map (fun _ => y) data) opts how ax kwargs = Raises e /\ forall j c', j < k -> nth_error new j = Some c' -> draw (of_ax ax ++ firstn j new) c' = None.
Proof.
  intros kwargs y K FK. induction data as [|d data IH]; intros opts how ax L FD FO; [left; destruct opts; (split; [reflexivity|]); intros [|n] c; discriminate|].
  destruct opts as [|o opts]; [discriminate|]. inversion FD; subst. inversion FO; subst. cbn [layer_calls map overlay]. cbn zeta.
  pose proof (layer_clash kwargs o K ltac:(assumption) FK ltac:(assumption) how (VText (name d))) as CL. unfold pop in *. cbn [fst snd] in *. rewrite CL. unfold layer_call. cbn [pop fst snd c_how]. unfold pop.
  match goal with |- context [basic_plot draw ax ?x] => set (c := x) end. set (how' := match dict_get (update [] (kwargs ++ o)) (lit "type") with Some v => v | None => how end) in *. set (rest := layer_calls kwargs data y opts how').
  unfold basic_plot. fold (of_ax ax). destruct (draw (of_ax ax) c) as [e|] eqn:E.
  - right. exists 0, c, e. split; [reflexivity|]. rewrite app_nil_r. split; [exact E|]. split; [reflexivity|]. intros j c' J. lia.
  - cbn [bind]. specialize (IH opts how' (Some (of_ax ax ++ [c])) ltac:(cbn in L; lia) ltac:(assumption) ltac:(assumption)). cbn zeta in IH. fold rest in IH. cbn [of_ax] in IH. destruct IH as [[EQ H]|(k & c' & e & N & DR & EQ & H)].
    + left. split; [rewrite EQ; destruct rest; [reflexivity|rewrite <- app_assoc; reflexivity]|]. intros [|k] c' N; [cbn in N; injection N as <-; rewrite app_nil_r; exact E|]. cbn [firstn]. specialize (H k c' N). rewrite <- app_assoc in H. exact H.
    + right. exists (S k), c', e. split; [exact N|]. split; [rewrite <- app_assoc in DR; exact DR|]. split; [exact EQ|]. intros [|j] x J NJ; [cbn in NJ; injection NJ as <-; rewrite app_nil_r; exact E|]. specialize (H j x ltac:(lia) NJ). rewrite <- app_assoc in H. exact H.
Qed.
Lemma layer_calls_len : forall kwargs y data opts how, length opts = length data -> length (layer_calls kwargs data y opts how) = length data.
Proof. intros kwargs y. induction data as [|d data IH]; intros opts how L; [reflexivity|]. destruct opts as [|o opts]; [discriminate|]. cbn. rewrite IH; [reflexivity|cbn in L; lia]. Qed.
Lemma latest_zero : forall o opts how, latest_type (o :: opts) how 0 (match dict_get o (lit "type") with Some v => v | None => how end).
Proof.
  intros o opts how. destruct (dict_get o (lit "type")) as [v|] eqn:E; [left; exists 0, o|right]; (split; [auto|]).
  - split; [reflexivity|]. split; [exact E|]. intros i o' J1 J2. lia.
  - intros i o' I N. assert (i = 0) as -> by lia. cbn in N. injection N as <-. exact E.
Qed.
Lemma latest_succ : forall o opts how k v, latest_type opts (match dict_get o (lit "type") with Some v => v | None => how end) k v -> latest_type (o :: opts) how (S k) v.
Proof.
  intros o opts how k v [(j & o1 & J & N & T & H)|[E H]].
  - left. exists (S j), o1. split; [lia|]. split; [exact N|]. split; [exact T|]. intros [|i] o' I1 I2 N'; [lia|]. apply (H i o'); [lia|lia|exact N'].
  - destruct (dict_get o (lit "type")) as [w|] eqn:E'.
    + left. exists 0, o. split; [lia|]. split; [reflexivity|]. split; [congruence|]. intros [|i] o' I1 I2 N'; [lia|]. apply (H i o'); [lia|exact N'].
    + right. split; [exact E|]. intros [|i] o' I N'; [cbn in N'; injection N' as <-; exact E'|]. apply (H i o'); [lia|exact N'].
Qed.
Lemma layer_calls_at : forall kwargs y, is_dict kwargs -> dict_get kwargs (lit "type") = None -> forall data opts how k d o, Forall is_dict opts -> nth_error data k = Some d -> nth_error opts k = Some o ->
  exists c v, nth_error (layer_calls kwargs data y opts how) k = Some c /\ latest_type opts how k v /\ drawn_as name d y v o kwargs c.
Proof.
  intros kwargs y K T. induction data as [|x data IH]; intros opts how k d o F Nd No; [destruct k; discriminate|]. destruct opts as [|w opts]; [destruct k; discriminate|]. inversion F; subst. cbn [layer_calls]. cbn zeta.
  pose proof (layer_call_ok kwargs x y w how K ltac:(assumption) T) as LC. assert (CH : c_how (layer_call kwargs x y w how) = match dict_get w (lit "type") with Some v => v | None => how end) by exact (proj1 (proj2 LC)).
  destruct k as [|k].
  - cbn in Nd, No. injection Nd as <-. injection No as <-. eexists _, _. split; [reflexivity|]. split; [apply latest_zero|exact LC].
  - cbn [nth_error] in *. rewrite CH. destruct (IH opts (match dict_get w (lit "type") with Some v => v | None => how end) k d o ltac:(assumption) Nd No) as (c & v & N & LT & DA). exists c, v. split; [exact N|]. split; [apply latest_succ; exact LT|exact DA].
Qed.
Lemma plain_type : forall how, a_type_of_its_own how -> is_text how (lit "comparativescatter") || is_text how (lit "histogram2d") = false /\ is_text how (lit "taylor") = false.
Proof.
  intros how (A & B & C). destruct (is_text how (lit "comparativescatter")) eqn:E1; [apply is_text_iff in E1; contradiction|]. destruct (is_text how (lit "histogram2d")) eqn:E2; [apply is_text_iff in E2; contradiction|]. destruct (is_text how (lit "taylor")) eqn:E3; [apply is_text_iff in E3; contradiction|]. auto.
Qed.
Lemma layers_ok : forall data how ax y opts kwargs, a_type_of_its_own how -> length opts = length data -> data <> [] -> is_dict kwargs -> Forall is_dict opts -> free_of ("type" :: reserved)%string kwargs -> Forall (free_of reserved) opts ->
  exists new, length new = length data /\ (forall k d o, nth_error data k = Some d -> nth_error opts k = Some o -> exists c v, nth_error new k = Some c /\ latest_type opts how k v /\ drawn_as name d y v o kwargs c) /\
    drawn draw (of_ax ax) new (multilayer_plot name draw draw_taylor data how ax (Y1 y) (Some opts) kwargs).
Proof.
  intros data how ax y opts kwargs PT L NE K FD FK FO. exists (layer_calls kwargs data y opts how). split; [apply layer_calls_len; exact L|].
  assert (T : dict_get kwargs (lit "type") = None) by (apply FK; left; reflexivity). assert (FK' : free_of reserved kwargs) by (intros k I; apply FK; right; exact I).
  split; [intros k d o; apply layer_calls_at; assumption|]. destruct (plain_type how PT) as [P1 P2]. unfold multilayer_plot. rewrite L, Nat.eqb_refl. cbn [negb]. rewrite P1, P2. cbn zeta.
  pose proof (overlay_ok kwargs y K FK' data opts how ax L FD FO) as OV. cbn zeta in OV. destruct data as [|d data]; [congruence|]. destruct opts as [|o opts]; [discriminate|]. cbn [map].
  change (y :: map (fun _ : D => y) data) with (map (fun _ => y) (d :: data)). destruct OV as [[EQ H]|(k & c & e & N & DR & EQ & H)].
  - left. rewrite EQ. split; [reflexivity|exact H].
  - right. exists k, c, e. rewrite EQ. auto.
Qed.
End Layers.
