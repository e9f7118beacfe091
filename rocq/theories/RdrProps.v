(** C62: reading lists of variables and datagroups. *)
From Coq Require Import String.
From Verif Require Import Base PyStr UngrModel UngrSpec FileListModel ParseModel ParseSpec RdrModel RdrSpec RdrProofs.
From Coq Require Import QArith List.
Import ListNotations.
Open Scope string_scope. Open Scope list_scope. Open Scope nat_scope. Notation length := List.length.

(** What is read: for every request the variables it stands for, in order, each the variable of the files; the i-th of them gets the i-th alias. *)
Theorem C62_read : forall r files vars product aliases l, read_data_list r files vars product aliases = Ok l ->
  exists nss, Forall2 (stands_for r files product) vars nss /\ l <> [] /\ Forall2 (is_variable r files product) (concat nss) l /\
  forall i n o, nth_error (concat nss) i = Some n -> nth_error l i = Some o -> alias_at aliases r files product i n o.
Proof. exact read_list_ok. Qed.
Print Assumptions C62_read.

(** When all the variables can be read and have coordinates of the same shapes: nothing to read and too few aliases are refused, everything else is read. *)
Theorem C62_total : forall r files vars product aliases nss g sh,
  Forall2 (stands_for r files product) vars nss ->
  (forall n, In n (concat nss) -> exists raw, r_get_data r files n product = Ok raw /\ o_item raw = mkItem g sh) ->
  (concat nss = [] -> read_data_list r files vars product aliases = Raises ValueError) /\
  (concat nss <> [] -> match aliases with Some als => als = [] \/ length (concat nss) <= length als | None => True end -> exists l, read_data_list r files vars product aliases = Ok l) /\
  (forall als, aliases = Some als -> als <> [] -> length als < length (concat nss) -> read_data_list r files vars product aliases = Raises ValueError).
Proof. exact read_list_total. Qed.
Print Assumptions C62_total.

(** Without patterns each variable gets the alias asked for it. *)
Theorem C62_aliases_partial : forall r files vars product als l, Forall (fun v => ~ pattern v) vars -> length als = length vars ->
  read_data_list r files vars product (Some als) = Ok l -> length l = length vars /\
  forall i v a o, nth_error vars i = Some v -> nth_error als i = Some a -> nth_error l i = Some o -> is_variable r files product v o /\ alias_of o = a.
Proof. exact read_plain. Qed.
Print Assumptions C62_aliases_partial.

(** From the command line: the specifications "v" and "v=a" of all the datagroups, without patterns, give one object each, in order, under
    its alias, and no two objects have the same alias. *)
Theorem C62_datagroups_partial : forall r gs gs' l, with_aliases gs = Ok gs' -> Forall (fun g => Forall (fun s => ~ pattern s) (g_vars g)) gs -> read_datagroups r gs' = Ok l ->
  NoDup (map alias_of l) /\ exists ls, l = concat ls /\ Forall2 (fun g lg => Forall2 (spec_object r (g_files g) (g_product g)) (g_vars g) lg) gs ls.
Proof. exact read_specs. Qed.
Print Assumptions C62_datagroups_partial.

(** read_data gives the only variable the request stands for; several are refused. *)
Theorem C62_one : forall r files v product o, read_data r files v product = Ok o -> exists n, stands_for r files product v [n] /\ is_variable r files product n o.
Proof. exact read_data_only. Qed.
Print Assumptions C62_one.

(** ** A reader of a file with the variables a1, a2, b, and patterns that end in a star *)
Definition one_value (q : Q) : array := mkArr [1] [Some q].
Definition abc_data (fs : list str) (v : str) (p : option str) : res dobj :=
  if str_eqb v (lit "a1") then Ok (mkObj v None [] (mkItem false [[1]; [1]]) [] (one_value 1))
  else if str_eqb v (lit "a2") then Ok (mkObj v None [] (mkItem false [[1]; [1]]) [] (one_value 2))
  else if str_eqb v (lit "b") then Ok (mkObj v None [] (mkItem false [[1]; [1]]) [] (one_value 3))
  else Raises InvalidVariableError.
Fixpoint prefix_star (n p : str) : bool :=
  match p, n with
  | [c], _ => if ascii_dec c "*"%char then true else match n with [d] => if ascii_dec c d then true else false | _ => false end
  | c :: p, d :: n => if ascii_dec c d then prefix_star n p else false
  | [], [] => true
  | _, _ => false
  end.
Definition abc : reader := mkReader abc_data (fun _ _ => Ok [lit "a1"; lit "a2"; lit "b"]) prefix_star.

(** A pattern that finds nothing hands its alias to the next variable: "x" was asked for the variables of "c*", "y" for b. *)
Theorem C62_alias_shift_refuted : exists r files vars als l o, length als = length vars /\ read_data_list r files vars None (Some als) = Ok l /\
  nth_error vars 1 = Some (lit "b") /\ nth_error als 1 = Some (lit "y") /\ In o l /\ is_variable r files None (lit "b") o /\ alias_of o <> lit "y".
Proof.
  exists abc, [lit "f"], [lit "c*"; lit "b"], [lit "x"; lit "y"]. do 2 eexists. split; [reflexivity|]. split; [vm_compute; reflexivity|].
  do 2 (split; [reflexivity|]). split; [left; reflexivity|]. split; [|vm_compute; discriminate].
  split; [reflexivity|]. eexists. split; [vm_compute; reflexivity|]. repeat split; reflexivity.
Qed.
Print Assumptions C62_alias_shift_refuted.
(** More aliases than variables are not refused. *)
Theorem C62_surplus_refuted : exists r files vars als l, length vars < length als /\ Forall (fun v => ~ pattern v) vars /\ read_data_list r files vars None (Some als) = Ok l.
Proof.
  exists abc, [lit "f"], [lit "b"], [lit "x"; lit "y"]. eexists. split; [cbn; lia|]. split; [|vm_compute; reflexivity].
  constructor; [|constructor]. unfold pattern. cbn. intuition discriminate.
Qed.
Print Assumptions C62_surplus_refuted.
(** A pattern on the command line of eval or stats (parse gives it itself as its alias) is refused when it stands for two variables. *)
Theorem C62_pattern_in_eval_refuted : exists r g g', with_aliases [g] = Ok [g'] /\ (exists ns, stands_for r (g_files g) (g_product g) (lit "a*") ns /\ length ns = 2) /\ g_vars g = [lit "a*"] /\
  read_datagroups r [g'] = Raises ValueError.
Proof.
  exists abc, (mkGroup [lit "f"] [lit "a*"] None None). eexists. split; [vm_compute; reflexivity|]. split; [|split; [reflexivity|vm_compute; reflexivity]].
  eexists. split; [|shelve]. right. split; [left; cbn; auto|]. eexists. split; reflexivity.
  Unshelve. vm_compute. reflexivity.
Qed.
Print Assumptions C62_pattern_in_eval_refuted.

Example C62_example :
  (exists l, read_data_list abc [lit "f"] [lit "a*"; lit "b"] None None = Ok l /\ map alias_of l = [lit "a1"; lit "a2"; lit "b"]) /\
  read_data_list abc [lit "f"] [lit "c*"] None None = Raises ValueError /\
  read_data_list abc [lit "f"] [lit "a*"] None (Some [lit "x"]) = Raises ValueError /\
  (exists gs l, with_aliases [mkGroup [lit "f"] [lit "a1=x"; lit "b"] None None; mkGroup [lit "f"] [lit "a2"] None None] = Ok gs /\ read_datagroups abc gs = Ok l /\
     map alias_of l = [lit "x"; lit "b"; lit "a2"] /\ map o_var l = [lit "a1"; lit "b"; lit "a2"]) /\
  (exists o, read_data abc [lit "f"] (lit "b") None = Ok o) /\ read_data abc [lit "f"] (lit "a*") None = Raises ValueError.
Proof.
  split; [|split; [|split; [|split; [|split]]]].
  - eexists. split; vm_compute; reflexivity.
  - vm_compute; reflexivity.
  - vm_compute; reflexivity.
  - do 2 eexists. split; [vm_compute; reflexivity|]. split; [vm_compute; reflexivity|]. split; vm_compute; reflexivity.
  - eexists. vm_compute. reflexivity.
  - vm_compute. reflexivity.
Qed.
