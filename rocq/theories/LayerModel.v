(** Which layers a plot command draws and with which options: cis/cis_main.py:28-50, cis/plotting/formatted_plot.py:140-188, cis/plotting/plot.py:402-497. *)
From Coq Require Import String.
From Verif Require Import Base PyStr FileListModel.

(** the value of an option: None, a text, or anything else (numbers, lists, colours), known by an index *)
Inductive pv := VNone | VText (s : str) | VOther (n : nat).
(** a Python dict with text keys *)
Definition kdict := list (str * pv).
(** [a.update(b)] *)
Definition update (a b : kdict) : kdict := fold_left (fun d kv => dict_set d (fst kv) (snd kv)) b a.
Definition has (d : kdict) (k : str) : bool := match dict_get d k with Some _ => true | None => false end.
Definition without (d : kdict) (k : str) : kdict := filter (fun kv => negb (str_eqb (fst kv) k)) d.
(** [d.pop(k, default)] *)
Definition pop (d : kdict) (k : str) (default : pv) : pv * kdict := (match dict_get d k with Some v => v | None => default end, without d k).
Definition is_text (v : pv) (s : str) : bool := match v with VText t => str_eqb t s | _ => false end.
Definition is_none (v : pv) : bool := match v with VNone => true | _ => false end.

Section Layers.
(** a data object (CommonData) and its name(), "" if that is None (get_label with units=False, plot.py:53-64) *)
Context {D : Type}.
Variable name : D -> str.
(** one call of basic_plot(data, how, ax, xaxis=..., **kw): the data drawn, the type, the data object for the x axis if one is given, and all the other keyword arguments *)
Record call := mkCall { c_data : D; c_how : pv; c_x : option D; c_kw : kdict }.
(** the arguments of Taylor(data_list, labels, colors, markers, **kwargs) *)
Record tcall := mkTaylor { t_data : list D; t_labels : list pv; t_colors : option (list pv); t_markers : option (list pv); t_kw : kdict }.
(** what the figure holds: the layers drawn on the axes, in order, or a Taylor diagram *)
Inductive figure := Layers (l : list call) | Diagram (t : tcall).
(** drawing one layer on axes that hold some already: None, or the exception it raises *)
Variable draw : list call -> call -> option exn.
Variable draw_taylor : tcall -> option exn.

(** plot.py:311-397 basic_plot: without axes it makes new ones *)
Definition basic_plot (ax : option (list call)) (c : call) : res (list call) :=
  let l := match ax with Some l => l | None => [] end in
  match draw l c with Some e => Raises e | None => Ok (l ++ [c]) end.
(** a call with a keyword argument twice raises TypeError; [given]: the arguments given by name or position *)
Definition clash (given : list str) (kw : kdict) : bool := existsb (has kw) given.

(** plot.py:433-438: [how] is a variable of the function, set anew by every layer that has a type *)
Fixpoint overlay (data : list D) (ys : list pv) (opts : list kdict) (how : pv) (ax : option (list call)) (kwargs : kdict) : res (option (list call)) :=
  match data, ys, opts with
  | d :: data, y :: ys, o :: opts =>
      let kw := update [] (kwargs ++ o) in
      let '(how, kw) := pop kw (lit "type") how in
      let '(label, kw) := pop kw (lit "label") (VText (name d)) in
      if clash [lit "data"; lit "how"; lit "ax"; lit "yaxis"] kw then Raises TypeError
      else bind (basic_plot ax (mkCall d how None ((lit "yaxis", y) :: (lit "label", label) :: kw))) (fun l => overlay data ys opts how (Some l) kwargs)
  | _, _, _ => Ok ax
  end.

(** plot.py:465-485 taylor_plot: what is popped off the layers' options; the rest of them is not used *)
Definition popped (k : string) (opts : list kdict) : list pv := map (fun o => fst (pop o (lit k) VNone)) opts.
Definition all_or_none (l : list pv) : res (option (list pv)) := if forallb is_none l then Ok None else if existsb is_none l then Raises ValueError else Ok (Some l).
Definition taylor_plot (data : list D) (opts : list kdict) (kwargs : kdict) : res figure :=
  let kwargs := without kwargs (lit "central_longitude") in
  let labels := popped "label" opts in
  bind (all_or_none (popped "itemstyle" opts)) (fun markers =>
  bind (all_or_none (popped "color" opts)) (fun colors =>
  match opts with
  | [] => Raises IndexError
  | o :: _ =>
      let t := mkTaylor data labels colors markers (dict_set kwargs (lit "itemwidth") (fst (pop o (lit "itemwidth") VNone))) in
      match draw_taylor t with Some e => Raises e | None => Ok (Diagram t) end
  end)).

(** plot.py:402-444 *)
Inductive yarg := Y1 (v : pv) | YList (l : list pv).
Definition multilayer_plot (data : list D) (how : pv) (ax : option (list call)) (yaxis : yarg) (layer_opts : option (list kdict)) (kwargs : kdict) : res figure :=
  let opts := match layer_opts with Some o => o | None => map (fun _ => []) data end in
  if negb (length opts =? length data) then Raises ValueError
  else if is_text how (lit "comparativescatter") || is_text how (lit "histogram2d") then
    match data, opts with
    | [a; b], o :: _ =>
        let kw := update [] (kwargs ++ o) in
        if clash [lit "data"; lit "how"; lit "ax"; lit "xaxis"] kw then Raises TypeError
        else bind (basic_plot ax (mkCall b how (Some a) kw)) (fun l => Ok (Layers l))
    | _, _ => Raises ValueError
    end
  else if is_text how (lit "taylor") then taylor_plot data opts kwargs
  else
    let ys := match yaxis with Y1 v => map (fun _ => v) data | YList l => l end in
    match data, ys with
    | [], _ | _, [] => Raises (match ax with Some _ => NameError | None => AttributeError end) (* None.legend, or [plot] unbound *)
    | _, _ => bind (overlay data ys opts how ax kwargs) (fun a => Ok (Layers (match a with Some l => l | None => [] end)))
    end.

(** formatted_plot.py:140-188 Plotter.  [wrap]: 180 degrees before the start of the data's longitudes, if they have any (get_x_wrap_start). *)
Definition with_central (wrap : option pv) (kwargs : kdict) : kdict :=
  match wrap with Some w => if has kwargs (lit "central_longitude") then kwargs else dict_set kwargs (lit "central_longitude") w | None => kwargs end.
Definition plotter (wrap : option pv) (data : list D) (type : pv) (layer_opts : list kdict) (kwargs : kdict) : res figure :=
  let kwargs := with_central wrap kwargs in
  match data with
  | [d] => match layer_opts with
           | [] => Raises IndexError
           | o :: _ => let kw := update kwargs o in
                       if clash [lit "data"; lit "how"] kw then Raises TypeError else bind (basic_plot None (mkCall d type None kw)) (fun l => Ok (Layers l))
           end
  | _ => let '(y, kwargs) := pop kwargs (lit "yaxis") VNone in multilayer_plot data type None (Y1 y) (Some layer_opts) kwargs
  end.

(** cis_main.py:39-50: the options that are no arguments of the plot, the parameters Plotter takes for itself, and the keys of a datagroup that are not options of its layer *)
Definition not_plot : list str := map lit ["command"; "quiet"; "verbose"; "force_overwrite"; "output_var"; "datagroups"]%string.
Definition plotter_own : list str :=
  map lit ["type"; "output"; "height"; "width"; "logx"; "logy"; "xmin"; "xmax"; "xstep"; "ymin"; "ymax"; "ystep"; "nasabluemarble"; "grid"; "xlabel"; "ylabel"; "title"; "fontsize"]%string.
Definition not_layer : list str := map lit ["variables"; "filenames"; "product"]%string.
Definition except (ks : list str) (d : kdict) : kdict := filter (fun kv => negb (existsb (str_eqb (fst kv)) ks)) d.
(** [data]: what read_datagroups reads for the datagroups, in their order (C62); [groups]: the datagroups as dictionaries (C08); [args]: the other arguments of the command *)
Definition plot_cmd (wrap : option pv) (data : list D) (groups : list kdict) (args : kdict) : res figure :=
  plotter wrap data (match dict_get args (lit "type") with Some v => v | None => VNone end) (map (except not_layer) groups) (except (not_plot ++ plotter_own) args).
End Layers.
Arguments call : clear implicits.
Arguments tcall : clear implicits.
Arguments figure : clear implicits.
