(** C78: the layers of a plot and their options. *)
From Coq Require Import String.
From Verif Require Import Base PyStr FileListModel LayerModel LayerSpec LayerProofs Layer2Proofs.

(** The plot command with two or more datagroups of one variable each: one layer for each, in order, with the options of its datagroup, else of the command, drawn until one cannot be drawn.
    (The type is the last given by a datagroup up to this one: exact.) *)
Theorem C78_layers_partial : forall {D} name draw draw_taylor wrap (data : list D) groups args, 2 <= length data -> length groups = length data -> a_type_of_its_own (command_type args) -> is_dict args -> Forall is_dict groups ->
  free_of ["data"; "how"; "ax"]%string args -> Forall (free_of reserved) groups ->
  exists new, length new = length data /\ (forall k d g, nth_error data k = Some d -> nth_error groups k = Some g -> exists c, nth_error new k = Some c /\
      c_data c = d /\ c_x c = None /\ latest_type groups (command_type args) k (c_how c) /\ dict_get (c_kw c) (lit "yaxis") = Some (command_axis args) /\
      dict_get (c_kw c) (lit "label") = Some (match own_or_command g args (lit "label") with Some l => l | None => VText (name d) end) /\
      options_of g args [lit "yaxis"; lit "label"; lit "type"; lit "central_longitude"] (c_kw c)) /\
    drawn draw [] new (plot_cmd name draw draw_taylor wrap data groups args).
Proof. intros D. exact command_layers. Qed.
Print Assumptions C78_layers_partial.

(** The last type given is the layer's own, else the command's, if the layer gives one or no earlier layer does. *)
Theorem C78_type_partial : forall opts how k v o, nth_error opts k = Some o -> latest_type opts how k v ->
  (dict_get o (lit "type") <> None \/ forall j o', j < k -> nth_error opts j = Some o' -> dict_get o' (lit "type") = None) -> own_type o how v.
Proof.
  intros opts how k v o N [(j & o1 & J & N1 & T & H)|[-> H]] C; [|right; split; [exact (H k o (le_n k) N)|reflexivity]].
  destruct (Nat.eq_dec j k) as [->|NE]; [left; congruence|]. destruct C as [C|C]; [exfalso; apply C, (H k o); [lia|lia|exact N]|]. exfalso. assert (X : dict_get o1 (lit "type") = None) by (apply (C j); [lia|exact N1]). congruence.
Qed.
Print Assumptions C78_type_partial.

(** The same for the function plotting several data objects, on new axes or on given ones. *)
Theorem C78_multilayer : forall {D} name draw draw_taylor (data : list D) how ax y opts kwargs, a_type_of_its_own how -> length opts = length data -> data <> [] -> is_dict kwargs -> Forall is_dict opts ->
  free_of ("type" :: reserved)%string kwargs -> Forall (free_of reserved) opts ->
  exists new, length new = length data /\ (forall k d o, nth_error data k = Some d -> nth_error opts k = Some o -> exists c v, nth_error new k = Some c /\ latest_type opts how k v /\ drawn_as name d y v o kwargs c) /\
    drawn draw (of_ax ax) new (multilayer_plot name draw draw_taylor data how ax (Y1 y) (Some opts) kwargs).
Proof. intros D. exact layers_ok. Qed.
Print Assumptions C78_multilayer.

(** One data object: drawn with the options of its datagroup, else of the command. *)
Theorem C78_one_partial : forall {D} name draw draw_taylor wrap (d : D) group groups args, is_dict args -> is_dict group -> free_of ["data"; "how"]%string args -> free_of ["data"; "how"]%string group ->
  exists c, c_data c = d /\ c_x c = None /\ c_how c = command_type args /\ options_of group args [lit "central_longitude"] (c_kw c) /\ dict_get (c_kw c) (lit "type") = dict_get group (lit "type") /\
    drawn draw [] [c] (plot_cmd name draw draw_taylor wrap [d] (group :: groups) args).
Proof. intros D. exact command_one. Qed.
Print Assumptions C78_one_partial.

(** Comparative plots: exactly two data objects, the first on the x axis; the options are those of the first. *)
Theorem C78_comparative : forall {D} name draw draw_taylor how (a b : D) oa ob ax y kwargs, comparative how -> is_dict kwargs -> is_dict oa -> free_of ["data"; "how"; "ax"; "xaxis"]%string kwargs -> free_of ["data"; "how"; "ax"; "xaxis"]%string oa ->
  exists c, c_data c = b /\ c_x c = Some a /\ c_how c = how /\ (forall k, dict_get (c_kw c) k = own_or_command oa kwargs k) /\ drawn draw (of_ax ax) [c] (multilayer_plot name draw draw_taylor [a; b] how ax y (Some [oa; ob]) kwargs).
Proof. intros D. exact compare_two. Qed.
Print Assumptions C78_comparative.
Theorem C78_comparative_two : forall {D} name draw draw_taylor how (data : list D) ax y opts kwargs, comparative how -> length data <> 2 -> multilayer_plot name draw draw_taylor data how ax y opts kwargs = Raises ValueError.
Proof. intros D. exact compare_count. Qed.
Print Assumptions C78_comparative_two.

(** Taylor diagrams: labels, markers and colours in the order of the data, markers and colours for all or for none; the width of the first. *)
Theorem C78_taylor : forall {D} name draw draw_taylor (data : list D) ax y opts kwargs, length opts = length data -> data <> [] -> forall ms cs, settled (map (own_value "itemstyle") opts) ms -> settled (map (own_value "color") opts) cs ->
  exists t, t_data t = data /\ t_labels t = map (own_value "label") opts /\ t_markers t = ms /\ t_colors t = cs /\ dict_get (t_kw t) (lit "itemwidth") = option_map (own_value "itemwidth") (hd_error opts) /\
    dict_get (t_kw t) (lit "central_longitude") = None /\ (forall k, k <> lit "itemwidth" -> k <> lit "central_longitude" -> dict_get (t_kw t) k = dict_get kwargs k) /\
    multilayer_plot name draw draw_taylor data (VText (lit "taylor")) ax y (Some opts) kwargs = match draw_taylor t with Some e => Raises e | None => Ok (Diagram t) end.
Proof. intros D. exact taylor_ok. Qed.
Print Assumptions C78_taylor.
Theorem C78_taylor_mixed : forall {D} name draw draw_taylor (data : list D) ax y opts kwargs k, length opts = length data -> k = "itemstyle"%string \/ k = "color"%string -> In VNone (map (own_value k) opts) -> (exists v, In v (map (own_value k) opts) /\ v <> VNone) ->
  multilayer_plot name draw draw_taylor data (VText (lit "taylor")) ax y (Some opts) kwargs = Raises ValueError.
Proof. intros D. exact taylor_mixed. Qed.
Print Assumptions C78_taylor_mixed.

(** Refuted: a layer without a type of its own is drawn as the command says.  It takes the type of the layer before. *)
Theorem C78_type_refuted : ~ forall (data : list nat) how y opts kwargs l, a_type_of_its_own how -> Forall is_dict opts -> is_dict kwargs ->
  multilayer_plot (fun _ => lit "x") (fun _ _ => None) (fun _ => None) data how None (Y1 y) (Some opts) kwargs = Ok (Layers l) ->
  forall k c o, nth_error l k = Some c -> nth_error opts k = Some o -> own_type o how (c_how c).
Proof.
  intros H. specialize (H [0; 1] (VText (lit "scatter")) VNone [[(lit "type", VText (lit "heatmap"))]; []] []). cbn in H. specialize (H _ ltac:(repeat split; discriminate) ltac:(repeat constructor; cbn; tauto) ltac:(constructor) eq_refl 1 _ _ eq_refl eq_refl).
  destruct H as [H|[_ H]]; discriminate H.
Qed.
Print Assumptions C78_type_refuted.

(** Refuted: the type given for the only datagroup is used.  It is passed on as an argument for the drawing, and the type is the command's. *)
Theorem C78_one_type_refuted : forall {D} name draw draw_taylor wrap (d : D) group groups args t, is_dict args -> is_dict group -> free_of ["data"; "how"]%string args -> free_of ["data"; "how"]%string group -> dict_get group (lit "type") = Some t ->
  exists c, c_how c = command_type args /\ dict_get (c_kw c) (lit "type") = Some t /\ drawn draw [] [c] (plot_cmd name draw draw_taylor wrap [d] (group :: groups) args).
Proof.
  intros D name draw draw_taylor wrap d group groups args t A G FA FG T. destruct (command_one name draw draw_taylor wrap d group groups args A G FA FG) as (c & _ & _ & H & _ & K & R). exists c. split; [exact H|]. split; [congruence|exact R].
Qed.
Print Assumptions C78_one_type_refuted.

(** Refuted: a datagroup may have several variables.  Unless there is just one data object, every command with another number of variables than datagroups fails. *)
Theorem C78_variables_refuted : forall {D} name draw draw_taylor wrap (data : list D) groups args, length data <> 1 -> length groups <> length data -> plot_cmd name draw draw_taylor wrap data groups args = Raises ValueError.
Proof. intros D. exact command_counts. Qed.
Print Assumptions C78_variables_refuted.

(** Refuted: in a comparative plot the options of both data objects count.  Those of the second are never looked at, although it is its values that are drawn. *)
Theorem C78_comparative_refuted : forall {D} name draw draw_taylor how (a b : D) oa ob ob' ax y kwargs, comparative how ->
  multilayer_plot name draw draw_taylor [a; b] how ax y (Some [oa; ob]) kwargs = multilayer_plot name draw draw_taylor [a; b] how ax y (Some [oa; ob']) kwargs.
Proof. intros D. exact compare_second. Qed.
Print Assumptions C78_comparative_refuted.

(** Refuted: every data object is drawn or an error is reported.  With a list of y axes that is too short the last ones are left out. *)
Theorem C78_axes_refuted : forall {D} name draw draw_taylor how (data : list D) ax ys opts kwargs l, a_type_of_its_own how -> multilayer_plot name draw draw_taylor data how ax (YList ys) opts kwargs = Ok (Layers l) -> length l <= length (of_ax ax) + length ys.
Proof. intros D. exact short_axes. Qed.
Print Assumptions C78_axes_refuted.

Definition two : list (string * string) -> kdict := map (fun p => (lit (fst p), VText (lit (snd p)))).
Example C78_case : plot_cmd (fun n : nat => lit "rain") (fun _ _ => None) (fun _ => None) (Some (VOther 7)) [1; 2]
    [two [("variables", "a"); ("filenames", "f"); ("color", "red")]; two [("variables", "b"); ("filenames", "g"); ("label", "B"); ("cmap", "RdBu")]]%string (two [("command", "plot"); ("type", "scatter"); ("title", "T"); ("cmap", "jet"); ("xaxis", "time")])%string =
  Ok (Layers [mkCall 1 (VText (lit "scatter")) None [(lit "yaxis", VNone); (lit "label", VText (lit "rain")); (lit "cmap", VText (lit "jet")); (lit "xaxis", VText (lit "time")); (lit "central_longitude", VOther 7); (lit "color", VText (lit "red"))];
              mkCall 2 (VText (lit "scatter")) None [(lit "yaxis", VNone); (lit "label", VText (lit "B")); (lit "cmap", VText (lit "RdBu")); (lit "xaxis", VText (lit "time")); (lit "central_longitude", VOther 7)]]).
Proof. reflexivity. Qed.
Example C78_short_case : multilayer_plot (fun n : nat => lit "rain") (fun _ _ => None) (fun _ => None) [1; 2] VNone None (YList [VText (lit "altitude")]) None [] = Ok (Layers [mkCall 1 VNone None [(lit "yaxis", VText (lit "altitude")); (lit "label", VText (lit "rain"))]]).
Proof. reflexivity. Qed.
Example C78_taylor_case : exists t, multilayer_plot (fun n : nat => lit "rain") (fun _ _ => None) (fun _ => None) [1; 2] (VText (lit "taylor")) None (Y1 VNone) (Some [two [("color", "red"); ("label", "A")]; two [("color", "blue")]]%string) [] = Ok (Diagram t) /\ t_colors t = Some [VText (lit "red"); VText (lit "blue")] /\ t_labels t = [VText (lit "A"); VNone].
Proof. eexists. split; [reflexivity|]. split; reflexivity. Qed.
