(** Proofs for C78: the command, comparative plots and Taylor diagrams. *)
From Coq Require Import String.
From Verif Require Import Base PyStr FileListModel FileListProofs LayerModel LayerSpec LayerProofs.

Lemma except_get : forall ks d k, dict_get (except ks d) k = if existsb (str_eqb k) ks then None else dict_get d k.
Proof.
  intros ks d k. induction d as [|[a v] d IH]; [cbn; destruct (existsb (str_eqb k) ks); reflexivity|]. unfold except in *. cbn [filter fst dict_get]. destruct (existsb (str_eqb a) ks) eqn:E; cbn [negb dict_get].
  - rewrite IH. destruct (str_eq_dec a k) as [->|_]; [rewrite E; reflexivity|reflexivity].
  - destruct (str_eq_dec a k) as [->|_]; [rewrite E; reflexivity|exact IH].
Qed.
Lemma in_iff : forall ks k, existsb (str_eqb k) (map lit ks) = true <-> one_of ks k.
Proof.
  intros ks k. unfold one_of. rewrite existsb_exists. split.
  - intros (x & I & E). apply str_eqb_eq in E. subst. exact I.
  - intros I. exists k. split; [exact I|apply str_eqb_refl].
Qed.
Lemma in_not : forall ks k, existsb (str_eqb k) (map lit ks) = false <-> ~ one_of ks k.
Proof. intros ks k. rewrite <- in_iff. destruct (existsb (str_eqb k) (map lit ks)); split; congruence. Qed.
Lemma filter_nodup : forall (f : str * pv -> bool) d, is_dict d -> is_dict (filter f d).
Proof.
  intros f d. unfold is_dict. induction d as [|[a v] d IH]; intros N; [exact N|]. inversion N; subst. cbn [filter]. destruct (f (a, v)); [|auto]. cbn. constructor; [|auto].
  intros I. apply in_map_iff in I. destruct I as (x & E & I). apply filter_In in I. apply H1. apply in_map_iff. exists x. tauto.
Qed.
Lemma except_dict : forall ks d, is_dict d -> is_dict (except ks d).
Proof. intros. apply filter_nodup. assumption. Qed.
Lemma without_dict : forall d k, is_dict d -> is_dict (without d k).
Proof. intros. apply filter_nodup. assumption. Qed.
Lemma figure_keys : not_plot ++ plotter_own = map lit of_the_figure.
Proof. reflexivity. Qed.
Lemma group_keys : not_layer = map lit of_the_group.
Proof. reflexivity. Qed.
Lemma layer_opt : forall g k, dict_get (except not_layer g) k = if existsb (str_eqb k) (map lit of_the_group) then None else dict_get g k.
Proof. intros. rewrite group_keys. apply except_get. Qed.
Lemma command_opt : forall a k, dict_get (except (not_plot ++ plotter_own) a) k = if existsb (str_eqb k) (map lit of_the_figure) then None else dict_get a k.
Proof. intros. rewrite figure_keys. apply except_get. Qed.
Lemma central_get : forall w a k, k <> lit "central_longitude" -> dict_get (with_central w a) k = dict_get a k.
Proof. intros [w|] a k N; [|reflexivity]. unfold with_central. destruct (has a (lit "central_longitude")); [reflexivity|]. rewrite get_set. destruct (str_eq_dec (lit "central_longitude") k); [congruence|reflexivity]. Qed.
Lemma central_dict : forall w a, is_dict a -> is_dict (with_central w a).
Proof. intros [w|] a N; [|exact N]. unfold with_central. destruct (has a (lit "central_longitude")); [exact N|]. apply dict_set_nodup. exact N. Qed.
(** the options of a layer, from those of its group and of the command *)
Lemma options_given : forall group args w special kw, In (lit "central_longitude") special ->
  (forall k, ~ In k special -> dict_get kw k = own_or_command (except not_layer group) (with_central w (except (not_plot ++ plotter_own) args)) k) ->
  (forall k, one_of of_the_group k -> ~ In k special) -> options_of group args special kw.
Proof.
  intros group args w special kw IC H SP.
  assert (NC : forall k, ~ In k special -> k <> lit "central_longitude") by (intros k N ->; contradiction).
  split; [|split].
  - intros k NG NF NS. rewrite (H k NS). unfold own_or_command. rewrite layer_opt, (central_get _ _ _ (NC k NS)), command_opt, (proj2 (in_not _ _) NG), (proj2 (in_not _ _) NF). reflexivity.
  - intros k G A. rewrite (H k (SP k G)). unfold own_or_command. rewrite layer_opt, (central_get _ _ _ (NC k (SP k G))), command_opt, (proj2 (in_iff _ _) G), A. destruct (existsb _ _); reflexivity.
  - intros k F G NS. rewrite (H k NS). unfold own_or_command. rewrite layer_opt, (central_get _ _ _ (NC k NS)), command_opt, (proj2 (in_iff _ _) F), G. destruct (existsb _ _); reflexivity.
Qed.

Section Command.
Context {D : Type}.
Variable name : D -> str.
Variable draw : list (call D) -> call D -> option exn.
Variable draw_taylor : tcall D -> option exn.

Lemma latest_except : forall groups how k v, latest_type (map (except not_layer) groups) how k v -> latest_type groups how k v.
Proof.
  assert (T : forall g, dict_get (except not_layer g) (lit "type") = dict_get g (lit "type")) by (intros g; rewrite layer_opt; reflexivity).
  intros groups how k v [(j & o & J & N & G & H)|[E H]].
  - left. rewrite nth_error_map in N. destruct (nth_error groups j) as [g|] eqn:NG; [|discriminate]. cbn in N. injection N as <-. exists j, g. split; [exact J|]. split; [exact NG|]. rewrite T in G. split; [exact G|].
    intros i o' I1 I2 NI. rewrite <- T. apply (H i); [exact I1|exact I2|]. rewrite nth_error_map, NI. reflexivity.
  - right. split; [exact E|]. intros i o' I NI. rewrite <- T. apply (H i); [exact I|]. rewrite nth_error_map, NI. reflexivity.
Qed.
Lemma command_layers : forall wrap data groups args, 2 <= length data -> length groups = length data -> a_type_of_its_own (command_type args) -> is_dict args -> Forall is_dict groups ->
  free_of ["data"; "how"; "ax"]%string args -> Forall (free_of reserved) groups ->
  exists new, length new = length data /\ (forall k d g, nth_error data k = Some d -> nth_error groups k = Some g -> exists c, nth_error new k = Some c /\
      c_data c = d /\ c_x c = None /\ latest_type groups (command_type args) k (c_how c) /\ dict_get (c_kw c) (lit "yaxis") = Some (command_axis args) /\
      dict_get (c_kw c) (lit "label") = Some (match own_or_command g args (lit "label") with Some l => l | None => VText (name d) end) /\
      options_of g args [lit "yaxis"; lit "label"; lit "type"; lit "central_longitude"] (c_kw c)) /\
    drawn draw [] new (plot_cmd name draw draw_taylor wrap data groups args).
Proof.
  intros wrap data groups args L2 L PT A FG FA FR. unfold plot_cmd, plotter.
  set (kw0 := with_central wrap (except (not_plot ++ plotter_own) args)). fold (command_type args).
  assert (K0 : is_dict kw0) by (apply central_dict, except_dict; exact A).
  assert (Y : fst (pop kw0 (lit "yaxis") VNone) = command_axis args). { unfold pop, kw0, command_axis. cbn [fst]. rewrite central_get; [|discriminate]. rewrite command_opt. reflexivity. }
  set (kw := snd (pop kw0 (lit "yaxis") VNone)).
  assert (KW : forall k, k <> lit "yaxis" -> dict_get kw k = dict_get kw0 k). { intros k N. unfold kw. rewrite pop_get. destruct (str_eq_dec (lit "yaxis") k); [congruence|reflexivity]. }
  assert (KD : is_dict kw) by (apply without_dict; exact K0).
  assert (FK : free_of ("type" :: reserved)%string kw).
  { intros s I. destruct (str_eq_dec (lit s) (lit "yaxis")) as [E|N]; [unfold kw; rewrite pop_get, E; destruct (str_eq_dec (lit "yaxis") (lit "yaxis")); congruence|]. rewrite (KW _ N). unfold kw0. rewrite central_get; [|destruct I as [<-|[<-|[<-|[<-|[<-|[]]]]]]; discriminate]. rewrite command_opt.
    destruct I as [<-|[<-|[<-|[<-|[<-|[]]]]]]; [reflexivity| | | |exfalso; apply N; reflexivity]; (rewrite FA; [destruct (existsb _ _); reflexivity|cbn; auto]). }
  assert (FO : Forall (free_of reserved) (map (except not_layer) groups)).
  { apply Forall_forall. intros o I. apply in_map_iff in I. destruct I as (g & <- & I). rewrite Forall_forall in FR. intros s Is. rewrite layer_opt, (FR g I s Is). destruct (existsb _ _); reflexivity. }
  assert (FD : Forall is_dict (map (except not_layer) groups)). { apply Forall_forall. intros o I. apply in_map_iff in I. destruct I as (g & <- & I). rewrite Forall_forall in FG. apply except_dict, FG. exact I. }
  assert (LO : length (map (except not_layer) groups) = length data) by (rewrite map_length; exact L).
  destruct (layers_ok name draw draw_taylor data (command_type args) None (command_axis args) _ kw PT LO ltac:(destruct data; cbn in L2; [lia|discriminate]) KD FD FK FO) as (new & LN & HN & DR).
  exists new. split; [exact LN|]. split.
  - intros k d g Nd Ng. destruct (HN k d (except not_layer g) Nd ltac:(rewrite nth_error_map, Ng; reflexivity)) as (c & v & Nc & LT & (C1 & C2 & C3 & C4 & C5 & C6 & C7)). exists c. split; [exact Nc|]. split; [exact C1|]. split; [exact C3|].
    split; [rewrite C2; apply latest_except; exact LT|]. split; [exact C4|]. split.
    + rewrite C5. unfold own_or_command. rewrite layer_opt. change (existsb (str_eqb (lit "label")) (map lit of_the_group)) with false. rewrite KW; [|discriminate]. unfold kw0. rewrite central_get; [|discriminate]. rewrite command_opt.
      change (existsb (str_eqb (lit "label")) (map lit of_the_figure)) with false. reflexivity.
    + apply (options_given g args wrap); [cbn; auto| |].
      * intros k' NS. rewrite C7; [|intros [<-|[<-|[<-|[]]]]; apply NS; cbn; auto]. unfold own_or_command. rewrite KW; [reflexivity|]. intros ->. apply NS. cbn. auto.
      * intros k' G NS. destruct G as [<-|[<-|[<-|[]]]]; destruct NS as [E|[E|[E|[E|[]]]]]; discriminate E.
  - cbn [of_ax] in DR. rewrite (surjective_pairing (pop kw0 (lit "yaxis") VNone)). rewrite Y. fold kw. destruct data as [|a [|b data]]; [cbn in L2; lia|cbn in L2; lia|exact DR].
Qed.
(** one data object *)
Lemma command_one : forall wrap d group groups args, is_dict args -> is_dict group -> free_of ["data"; "how"]%string args -> free_of ["data"; "how"]%string group ->
  exists c, c_data c = d /\ c_x c = None /\ c_how c = command_type args /\ options_of group args [lit "central_longitude"] (c_kw c) /\ dict_get (c_kw c) (lit "type") = dict_get group (lit "type") /\
    drawn draw [] [c] (plot_cmd name draw draw_taylor wrap [d] (group :: groups) args).
Proof.
  intros wrap d group groups args A G FA FG. set (kw0 := with_central wrap (except (not_plot ++ plotter_own) args)). set (kw := update kw0 (except not_layer group)).
  assert (KG : forall k, dict_get kw k = own_or_command (except not_layer group) kw0 k) by (intros k; apply update_get, except_dict; exact G).
  exists (mkCall d (command_type args) None kw). split; [reflexivity|]. split; [reflexivity|]. split; [reflexivity|]. cbn [c_kw]. split; [|split].
  - apply (options_given group args wrap); [cbn; auto|intros k _; apply KG|]. intros k OG [E|[]]. destruct OG as [<-|[<-|[<-|[]]]]; discriminate E.
  - rewrite KG. unfold own_or_command. rewrite layer_opt. unfold kw0. rewrite central_get; [|discriminate]. rewrite command_opt. change (existsb (str_eqb (lit "type")) (map lit of_the_group)) with false. cbv iota. destruct (dict_get group (lit "type")); reflexivity.
  - unfold plot_cmd, plotter. cbn [map]. fold kw0. fold kw. fold (command_type args).
    assert (CL : clash [lit "data"; lit "how"] kw = false).
    { apply clash_false. intros k I. rewrite KG. unfold own_or_command. rewrite layer_opt. unfold kw0. rewrite central_get; [|destruct I as [<-|[<-|[]]]; discriminate]. rewrite command_opt.
      destruct I as [<-|[<-|[]]]; (rewrite FG; [|cbn; auto]); (rewrite FA; [|cbn; auto]); repeat match goal with |- context [if ?b then _ else _] => destruct b end; reflexivity. }
    rewrite CL. unfold basic_plot. cbn [app]. destruct (draw [] (mkCall d (command_type args) None kw)) as [e|] eqn:E.
    + right. exists 0, (mkCall d (command_type args) None kw), e. split; [reflexivity|]. split; [exact E|]. split; [reflexivity|]. intros j c' J. lia.
    + left. split; [reflexivity|]. intros [|k] c N; [cbn in N; injection N as <-; exact E|destruct k; discriminate].
Qed.
(** the numbers of data objects and of datagroups *)
Lemma command_counts : forall wrap data groups args, length data <> 1 -> length groups <> length data -> plot_cmd name draw draw_taylor wrap data groups args = Raises ValueError.
Proof.
  intros wrap data groups args N1 NL. unfold plot_cmd, plotter, multilayer_plot. destruct (pop _ _ _) as [y kw]. rewrite map_length. destruct (Nat.eqb_spec (length groups) (length data)) as [E|_]; [contradiction|]. destruct data as [|a [|b data]]; [reflexivity|cbn in N1; lia|reflexivity].
Qed.
(** comparative plots *)
Lemma compare_two : forall how a b oa ob ax y kwargs, comparative how -> is_dict kwargs -> is_dict oa -> free_of ["data"; "how"; "ax"; "xaxis"]%string kwargs -> free_of ["data"; "how"; "ax"; "xaxis"]%string oa ->
  exists c, c_data c = b /\ c_x c = Some a /\ c_how c = how /\ (forall k, dict_get (c_kw c) k = own_or_command oa kwargs k) /\ drawn draw (of_ax ax) [c] (multilayer_plot name draw draw_taylor [a; b] how ax y (Some [oa; ob]) kwargs).
Proof.
  intros how a b oa ob ax y kwargs C K O FK FO. exists (mkCall b how (Some a) (update [] (kwargs ++ oa))). split; [reflexivity|]. split; [reflexivity|]. split; [reflexivity|]. split; [intros k; apply merged_get; assumption|].
  unfold multilayer_plot. cbn [length Nat.eqb negb]. replace (is_text how (lit "comparativescatter") || is_text how (lit "histogram2d")) with true by (destruct C as [-> | ->]; reflexivity).
  rewrite clash_false.
  - unfold basic_plot. fold (of_ax ax). destruct (draw (of_ax ax) _) as [e|] eqn:E.
    + right. eexists 0, _, e. split; [reflexivity|]. cbn [firstn]. rewrite app_nil_r. split; [exact E|]. split; [reflexivity|]. intros j c' J. lia.
    + left. split; [reflexivity|]. intros [|k] c N; [cbn in N; injection N as <-; cbn [firstn]; rewrite app_nil_r; exact E|destruct k; discriminate].
  - intros k I. rewrite merged_get; [|assumption|assumption]. unfold own_or_command. destruct I as [<-|[<-|[<-|[<-|[]]]]]; (rewrite FO; [|cbn; auto]); apply FK; cbn; auto.
Qed.
Lemma compare_second : forall how a b oa ob ob' ax y kwargs, comparative how -> multilayer_plot name draw draw_taylor [a; b] how ax y (Some [oa; ob]) kwargs = multilayer_plot name draw draw_taylor [a; b] how ax y (Some [oa; ob']) kwargs.
Proof. intros how a b oa ob ob' ax y kwargs C. unfold multilayer_plot. cbn [length Nat.eqb negb]. replace (is_text how (lit "comparativescatter") || is_text how (lit "histogram2d")) with true by (destruct C as [-> | ->]; reflexivity). reflexivity. Qed.
Lemma compare_count : forall how data ax y opts kwargs, comparative how -> length data <> 2 -> multilayer_plot name draw draw_taylor data how ax y opts kwargs = Raises ValueError.
Proof.
  intros how data ax y opts kwargs C N. unfold multilayer_plot. destruct (negb _); [reflexivity|]. replace (is_text how (lit "comparativescatter") || is_text how (lit "histogram2d")) with true by (destruct C as [-> | ->]; reflexivity). destruct data as [|a [|b [|c data]]]; try reflexivity. cbn in N. lia.
Qed.
(** too short a list of y axes *)
Lemma short_axes : forall how data ax ys opts kwargs l, a_type_of_its_own how -> multilayer_plot name draw draw_taylor data how ax (YList ys) opts kwargs = Ok (Layers l) -> length l <= length (of_ax ax) + length ys.
Proof.
  assert (OV : forall data ys opts how ax kwargs a, overlay name draw data ys opts how ax kwargs = Ok a -> length (of_ax a) <= length (of_ax ax) + length ys).
  { induction data as [|d data IH]; intros ys opts how ax kwargs a; [cbn; intros [= <-]; lia|]. destruct ys as [|y ys]; [cbn; intros [= <-]; lia|]. destruct opts as [|o opts]; [cbn; intros [= <-]; lia|]. cbn [overlay]. destruct (pop _ _ _) as [h kw]. destruct (pop _ _ _) as [lb kw']. destruct (clash _ _); [discriminate|].
    unfold basic_plot. fold (of_ax ax). destruct (draw (of_ax ax) _); [discriminate|]. cbn [bind]. intros H. apply IH in H. cbn [of_ax] in H. rewrite app_length in H. cbn in *. lia. }
  intros how data ax ys opts kwargs l PT H. unfold multilayer_plot in H. destruct (negb _); [discriminate|]. destruct (plain_type how PT) as [-> ->] in H. destruct data as [|d data]; [discriminate|]. destruct ys as [|y ys]; [discriminate|].
  destruct (overlay _ _ _ _ _ _ _ _) as [a|] eqn:E; [|discriminate]. cbn [bind] in H. injection H as <-. exact (OV _ _ _ _ _ _ _ E).
Qed.
(** Taylor diagrams *)
Lemma all_none : forall l, (Forall (fun v => v = VNone) l -> all_or_none l = Ok None) /\ (l <> [] -> Forall (fun v => v <> VNone) l -> all_or_none l = Ok (Some l)) /\ (In VNone l -> (exists v, In v l /\ v <> VNone) -> all_or_none l = Raises ValueError).
Proof.
  intros l. unfold all_or_none.
  assert (NN : forall v, is_none v = true <-> v = VNone) by (intros [| |]; cbn; split; congruence).
  assert (FA : forallb is_none l = true <-> Forall (fun v => v = VNone) l) by (rewrite forallb_forall, Forall_forall; split; intros H x I; apply NN, H, I).
  assert (EX : existsb is_none l = true <-> In VNone l). { rewrite existsb_exists. split; [intros (x & I & E); apply NN in E; subst; exact I|intros I; exists VNone; auto]. }
  split; [|split].
  - intros F. rewrite (proj2 FA F). reflexivity.
  - intros NE F. destruct (forallb is_none l) eqn:E. { pose proof (proj1 FA eq_refl) as E'. clear FA EX E. rename E' into E. destruct l as [|x l]; [congruence|]. inversion E; subst. inversion F; subst. congruence. }
    destruct (existsb is_none l) eqn:E2; [|reflexivity]. pose proof (proj1 EX eq_refl) as E3. clear E2. rename E3 into E2. rewrite Forall_forall in F. exfalso. exact (F _ E2 eq_refl).
  - intros I (v & Iv & Nv). destruct (forallb is_none l) eqn:E. { pose proof (proj1 FA eq_refl) as E'. clear E. rename E' into E. rewrite Forall_forall in E. exfalso. exact (Nv (E v Iv)). } rewrite (proj2 EX I). reflexivity.
Qed.
Lemma taylor_ok : forall data ax y opts kwargs, length opts = length data -> data <> [] -> forall ms cs, settled (map (own_value "itemstyle") opts) ms -> settled (map (own_value "color") opts) cs ->
  exists t, t_data t = data /\ t_labels t = map (own_value "label") opts /\ t_markers t = ms /\ t_colors t = cs /\ dict_get (t_kw t) (lit "itemwidth") = option_map (own_value "itemwidth") (hd_error opts) /\
    dict_get (t_kw t) (lit "central_longitude") = None /\ (forall k, k <> lit "itemwidth" -> k <> lit "central_longitude" -> dict_get (t_kw t) k = dict_get kwargs k) /\
    multilayer_plot name draw draw_taylor data (VText (lit "taylor")) ax y (Some opts) kwargs = match draw_taylor t with Some e => Raises e | None => Ok (Diagram t) end.
Proof.
  intros data ax y opts kwargs L NE ms cs M0 C0. assert (SE : forall l r, settled l r -> all_or_none l = Ok r) by (intros l r [[F ->]|(N & F & ->)]; [apply (proj1 (all_none l)); exact F|apply (proj1 (proj2 (all_none l))); assumption]).
  apply SE in M0 as M. apply SE in C0 as C. destruct opts as [|o opts]; [destruct data; [congruence|discriminate]|].
  exists (mkTaylor data (map (own_value "label") (o :: opts)) cs ms (dict_set (without kwargs (lit "central_longitude")) (lit "itemwidth") (own_value "itemwidth" o))). cbn [t_data t_labels t_markers t_colors t_kw].
  split; [reflexivity|]. split; [reflexivity|]. split; [reflexivity|]. split; [reflexivity|]. split; [rewrite get_set; reflexivity|]. split; [rewrite get_set, without_get; reflexivity|]. split.
  - intros k N1 N2. rewrite get_set, without_get. destruct (str_eq_dec (lit "itemwidth") k); [congruence|]. destruct (str_eq_dec (lit "central_longitude") k); [congruence|reflexivity].
  - unfold multilayer_plot. rewrite L, Nat.eqb_refl. cbn [negb]. replace (is_text (VText (lit "taylor")) (lit "comparativescatter") || is_text (VText (lit "taylor")) (lit "histogram2d")) with false by reflexivity. replace (is_text (VText (lit "taylor")) (lit "taylor")) with true by reflexivity.
    unfold taylor_plot. change (popped "itemstyle" (o :: opts)) with (map (own_value "itemstyle") (o :: opts)). change (popped "color" (o :: opts)) with (map (own_value "color") (o :: opts)). rewrite M, C. reflexivity.
Qed.
Lemma taylor_mixed : forall data ax y opts kwargs k, length opts = length data -> k = "itemstyle"%string \/ k = "color"%string -> In VNone (map (own_value k) opts) -> (exists v, In v (map (own_value k) opts) /\ v <> VNone) ->
  multilayer_plot name draw draw_taylor data (VText (lit "taylor")) ax y (Some opts) kwargs = Raises ValueError.
Proof.
  intros data ax y opts kwargs k L K I V. unfold multilayer_plot. rewrite L, Nat.eqb_refl. cbn [negb]. replace (is_text (VText (lit "taylor")) (lit "comparativescatter") || is_text (VText (lit "taylor")) (lit "histogram2d")) with false by reflexivity. replace (is_text (VText (lit "taylor")) (lit "taylor")) with true by reflexivity.
  unfold taylor_plot. change (popped "itemstyle" opts) with (map (own_value "itemstyle") opts). change (popped "color" opts) with (map (own_value "color") opts).
  pose proof (proj2 (proj2 (all_none _)) I V) as E. assert (AN : forall l e, all_or_none l = Raises e -> e = ValueError) by (intros l e; unfold all_or_none; destruct (forallb _ _); [discriminate|]; destruct (existsb _ _); congruence).
  destruct K as [-> | ->]; [rewrite E; reflexivity|]. destruct (all_or_none (map (own_value "itemstyle") opts)) as [ms|e] eqn:E1; [cbn [bind]; rewrite E; reflexivity|]. apply AN in E1. subst. reflexivity.
Qed.
End Command.
