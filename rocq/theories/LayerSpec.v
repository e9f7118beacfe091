(** Which layers a plot command should draw, C78. *)
From Coq Require Import String.
From Verif Require Import Base PyStr FileListModel LayerModel.

Definition is_dict (d : kdict) : Prop := NoDup (map fst d).
(** what a layer's own options say, else what the options of the whole command say *)
Definition own_or_command (own command : kdict) (k : str) : option pv := match dict_get own k with Some v => Some v | None => dict_get command k end.
(** the layer's own type, else the command's *)
Definition own_type (own : kdict) (how v : pv) : Prop := dict_get own (lit "type") = Some v \/ (dict_get own (lit "type") = None /\ v = how).
(** the last type given by the layers up to this one, else the command's *)
Definition latest_type (opts : list kdict) (how : pv) (k : nat) (v : pv) : Prop :=
  (exists j o, j <= k /\ nth_error opts j = Some o /\ dict_get o (lit "type") = Some v /\ forall i o', j < i -> i <= k -> nth_error opts i = Some o' -> dict_get o' (lit "type") = None) \/
  (v = how /\ forall i o', i <= k -> nth_error opts i = Some o' -> dict_get o' (lit "type") = None).
(** keys which are no options of a plot *)
Definition free_of (ks : list string) (d : kdict) : Prop := forall k, In k ks -> dict_get d (lit k) = None.
Definition a_type_of_its_own (how : pv) : Prop := how <> VText (lit "comparativescatter") /\ how <> VText (lit "histogram2d") /\ how <> VText (lit "taylor").
Definition comparative (how : pv) : Prop := how = VText (lit "comparativescatter") \/ how = VText (lit "histogram2d").

Section Drawing.
Context {D : Type}.
Variable name : D -> str.
Variable draw : list (call D) -> call D -> option exn.
(** the layer [c] shows [d], drawn as [v], with the options [own], else [command] *)
Definition drawn_as (d : D) (y v : pv) (own command : kdict) (c : call D) : Prop :=
  c_data c = d /\ c_how c = v /\ c_x c = None /\ dict_get (c_kw c) (lit "yaxis") = Some y /\
  dict_get (c_kw c) (lit "label") = Some (match own_or_command own command (lit "label") with Some l => l | None => VText (name d) end) /\
  dict_get (c_kw c) (lit "type") = None /\
  forall k, ~ In k [lit "yaxis"; lit "label"; lit "type"] -> dict_get (c_kw c) k = own_or_command own command k.
(** the layers [new] are drawn one after the other above those there are, until one cannot be drawn *)
Definition drawn (prior new : list (call D)) (r : res (figure D)) : Prop :=
  (r = Ok (Layers (prior ++ new)) /\ forall k c, nth_error new k = Some c -> draw (prior ++ firstn k new) c = None) \/
  exists k c e, nth_error new k = Some c /\ draw (prior ++ firstn k new) c = Some e /\ r = Raises e /\ forall j c', j < k -> nth_error new j = Some c' -> draw (prior ++ firstn j new) c' = None.
End Drawing.

(** the options of the command that belong to the figure or to the command itself, not to its layers *)
Definition of_the_figure : list string :=
  ["command"; "quiet"; "verbose"; "force_overwrite"; "output_var"; "datagroups"; "type"; "output"; "height"; "width"; "logx"; "logy"; "xmin"; "xmax"; "xstep"; "ymin"; "ymax"; "ystep";
   "nasabluemarble"; "grid"; "xlabel"; "ylabel"; "title"; "fontsize"]%string.
(** the parts of a datagroup that are not options of its layer *)
Definition of_the_group : list string := ["variables"; "filenames"; "product"]%string.
Definition one_of (ks : list string) (k : str) : Prop := In k (map lit ks).
(** the keyword arguments [kw] of a layer are the options of its datagroup, else of the command; what is not an option of a layer is not passed on *)
Definition options_of (group args : kdict) (special : list str) (kw : kdict) : Prop :=
  (forall k, ~ one_of of_the_group k -> ~ one_of of_the_figure k -> ~ In k special -> dict_get kw k = own_or_command group args k) /\
  (forall k, one_of of_the_group k -> dict_get args k = None -> dict_get kw k = None) /\
  (forall k, one_of of_the_figure k -> dict_get group k = None -> ~ In k special -> dict_get kw k = None).
(** --type, --yaxis *)
Definition command_type (args : kdict) : pv := match dict_get args (lit "type") with Some v => v | None => VNone end.
Definition command_axis (args : kdict) : pv := match dict_get args (lit "yaxis") with Some v => v | None => VNone end.
(** names of parameters that no option has *)
Definition reserved : list string := ["data"; "how"; "ax"; "yaxis"]%string.
(** the layers there are on the axes given, if any *)
Definition of_ax {D} (ax : option (list (call D))) : list (call D) := match ax with Some l => l | None => [] end.
(** the value a layer gives to an option *)
Definition own_value (k : string) (o : kdict) : pv := match dict_get o (lit k) with Some v => v | None => VNone end.
(** an option given by none of the layers, or by all *)
Definition settled (l : list pv) (r : option (list pv)) : Prop := (Forall (fun v => v = VNone) l /\ r = None) \/ (l <> [] /\ Forall (fun v => v <> VNone) l /\ r = Some l).
