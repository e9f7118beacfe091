(** C49 Arithmetic on data objects does not change its operands. *)
From Coq Require Import String.
From Verif Require Import Base PyStr QBase LonModel HeapModel HeapSpec HeapProofs HeapProps MathModel MathSpec MathProofs Math2Proofs.
From Coq Require Import List Lia Arith.
Import ListNotations.
Open Scope string_scope. Open Scope list_scope. Open Scope nat_scope. Notation length := List.length.

(** Adding, subtracting, multiplying, dividing, for any right operand that has units the operation allows and a shape that fits: new data, each value the
    operation on the value of the left operand and the one of the right that stands against it, with the resulting units, a line of history, and coordinates
    equal to those of the left operand.  The left operand keeps everything but shape and range in its metadata, which are brought up to date. *)
Theorem C49_new_partial : forall op units m o h d v ou oa u, two_operands op units m -> see_data h d = Some v -> all_there v -> own_metadata h d -> own_std_names (snd v) ->
  see_operand h o = Some (ou, oa) -> units (v_units (v_md (fst v))) ou = Ok u -> v_shape (v_md (fst v)) = fst (v_data (fst v)) -> whole (v_data (fst v)) -> whole oa -> fits (fst oa) (fst (v_data (fst v))) ->
  exists c h' r, m o false d h = Ok (c, h') /\ combined op (v_data (fst v)) oa r /\ see_data h' d = Some (refreshed (fst v), map refreshed_coord (snd v)) /\ see_data h' c = Some (outcome r u (line_of (lit "unary_func")) v).
Proof. exact two_new. Qed.
Print Assumptions C49_new_partial.
(** A left operand whose metadata are up to date is not changed at all. *)
Theorem C49_left_unchanged_partial : forall op units m o h d v ou oa u, two_operands op units m -> see_data h d = Some v -> all_there v -> own_metadata h d -> own_std_names (snd v) ->
  see_operand h o = Some (ou, oa) -> units (v_units (v_md (fst v))) ou = Ok u -> up_to_date v -> whole (v_data (fst v)) -> whole oa -> fits (fst oa) (fst (v_data (fst v))) ->
  exists c h', m o false d h = Ok (c, h') /\ see_data h' d = Some v.
Proof.
  intros op units m o h d v ou oa u T E A O U Eo Eu D Wa Wo F. destruct (two_new op units m o h d v ou oa u T E A O U Eo Eu (proj1 (proj1 D)) Wa Wo F) as (c & h' & r & E1 & _ & E2 & _). exists c, h'. split; auto. rewrite E2, refreshed_all_date; auto.
Qed.
Print Assumptions C49_left_unchanged_partial.
(** The same of coordinates, which are not changed at all; *)
Theorem C49_coordinate : forall op units m o h d v ax ou oa u, two_operands op units m -> see_coord h d = Some (v, ax) ->
  see_operand h o = Some (ou, oa) -> units (v_units (v_md v)) ou = Ok u -> v_shape (v_md v) = fst (v_data v) -> whole (v_data v) -> whole oa -> fits (fst oa) (fst (v_data v)) ->
  exists c h' r, m o false d h = Ok (c, h') /\ combined op (v_data v) oa r /\ see_coord h' d = Some (v, ax) /\ see_coord h' c = Some (new_lazy r u (line_of (lit "unary_func")) (v_md v), upper ax).
Proof. exact two_new_coord. Qed.
Print Assumptions C49_coordinate.
(** and of operations with one operand (abs, powers, exponential, logarithms). *)
Theorem C49_one_operand_partial : forall op units name m h d v u, one_operand op units name m -> see_data h d = Some v -> all_there v -> own_metadata h d -> own_std_names (snd v) -> units (v_units (v_md (fst v))) = Ok u ->
  exists c h' r, m false d h = Ok (c, h') /\ mapped op (v_data (fst v)) r /\ see_data h' d = Some (refreshed (fst v), map refreshed_coord (snd v)) /\ see_data h' c = Some (outcome r u (line_of name) v).
Proof. exact one_new. Qed.
Print Assumptions C49_one_operand_partial.
(** What is new shares nothing with anything there was before: not with an operand, nor its coordinates. *)
Theorem C49_shares_nothing : forall op units m o d op1 units1 name1 m1, two_operands op units m -> one_operand op1 units1 name1 m1 -> fresh_from d (m o false d) /\ fresh_from d (m1 false d).
Proof. exact operations_fresh. Qed.
Print Assumptions C49_shares_nothing.
(** New or in place: nothing but what belongs to the left operand is changed.  So a right operand that shares nothing with it is not. *)
Theorem C49_others : forall op units m o b d op1 units1 name1 m1 h c h', two_operands op units m -> one_operand op1 units1 name1 m1 -> no_dangling h -> d < length h ->
  m o b d h = Ok (c, h') \/ m1 b d h = Ok (c, h') -> edit d h h' /\ forall z, z < length h -> separate h d z -> looks_the_same h h' z.
Proof. exact operations_change. Qed.
Print Assumptions C49_others.
(** In place: the values, units and history of the left operand, nothing else of it, and nothing of any object that has not to do with its values or metadata. *)
Theorem C49_in_place : forall op units m o h d v ou oa u, two_operands op units m -> see_left h d = Some v -> own_places h d ->
  see_operand h o = Some (ou, oa) -> units (v_units (v_md v)) ou = Ok u -> v_shape (v_md v) = fst (v_data v) -> whole (v_data v) -> whole oa -> fits (fst oa) (fst (v_data v)) ->
  exists h' r, m o true d h = Ok (d, h') /\ combined op (v_data v) oa r /\ in_place_effect r u (line_of (lit "unary_func")) d h h' v.
Proof. exact two_in_place. Qed.
Print Assumptions C49_in_place.
Theorem C49_one_in_place : forall op units name m h d v u, one_operand op units name m -> see_left h d = Some v -> own_places h d -> units (v_units (v_md v)) = Ok u ->
  exists h' r, m true d h = Ok (d, h') /\ mapped op (v_data v) r /\ in_place_effect r u (line_of name) d h h' v.
Proof. exact one_in_place. Qed.
Print Assumptions C49_one_in_place.
(** Units that differ are refused in sums and differences, those that cannot be multiplied in products; shapes that do not fit are refused. *)
Theorem C49_refused : forall op units m o b h d v ou oa, two_operands op units m -> see_left h d = Some v -> see_operand h o = Some (ou, oa) ->
  (forall e, units (v_units (v_md v)) ou = Raises e -> m o b d h = Raises e) /\
  (forall u, units (v_units (v_md v)) ou = Ok u -> v_shape (v_md v) = fst (v_data v) -> ~ fits (fst oa) (fst (v_data v)) -> m o b d h = Raises ValueError).
Proof. exact two_refused. Qed.
Print Assumptions C49_refused.
Theorem C49_sum_units : forall left right, (sum_units left (Some right) = Ok left <-> left = right) /\ (left <> right -> sum_units left (Some right) = Raises NotImplementedError) /\ sum_units left None = Ok left.
Proof.
  intros left right. unfold sum_units. destruct (str_eqb left right) eqn:E.
  - apply str_eqb_eq in E. split; [split; auto|]. split; [contradiction|reflexivity].
  - assert (N : left <> right) by (intros X; apply str_eqb_eq in X; congruence). split; [split; [discriminate|contradiction]|]. auto.
Qed.
Print Assumptions C49_sum_units.

(** ** Cases *)
Definition plus (a b : cell) : cell := mkCell (masked a || masked b) (match value a, value b with Some x, Some y => Some (Qred (x + y)) | _, _ => None end).
Definition times_q (a b : cell) : cell := mkCell (masked a || masked b) (match value a, value b with Some x, Some y => Some (Qred (x * y)) | _, _ => None end).
Definition joined (a b : str) : res str := Ok (a ++ lit " " ++ b).
(** the data of the other examples, once its coordinates have been asked for *)
Definition h1 : heap := Eval vm_compute in match run [Coords] 18 h0 with Ok (_, h) => h | Raises _ => [] end.
Lemma h1_ok : no_dangling h1. Proof. apply no_dangling_check. vm_compute. reflexivity. Qed.
Lemma h1_view : exists v, see_data h1 18 = Some v /\ all_there v /\ own_metadata h1 18 /\ own_std_names (snd v) /\ up_to_date v /\ v_data (fst v) = ([3], [at_q 1; at_q 2; gone]) /\ v_units (v_md (fst v)) = lit "1".
Proof.
  eexists. split; [vm_compute; reflexivity|]. split; [repeat constructor; discriminate|]. split; [vm_compute; apply_nodup|]. split; [|split; [repeat constructor|split; reflexivity]].
  intros [|[|i]] [|[|j]] x y Ex Ey E _; cbn in Ex, Ey; try reflexivity; try (injection Ex as <-); try (injection Ey as <-); try discriminate; try (destruct i; discriminate); try (destruct j; discriminate).
Qed.
(** d + d, d * latitude, d + latitude (other units), d + an array of two *)
Example C49_case_new : exists c h', add_subtract plus (Object 18) false 18 h1 = Ok (c, h') /\ exists v w, see_data h1 18 = Some v /\ see_data h' 18 = Some v /\ see_data h' c = Some w /\
  v_data (fst w) = ([3], [at_q 2; at_q 4; gone]) /\ v_range (v_md (fst w)) = [Some 2; Some 4]%Q /\ v_units (v_md (fst w)) = lit "1" /\ v_history (v_md (fst w)) = lit "Performed unary_func operation" /\
  map (fun c => snd (v_data (fst c))) (snd w) = [there; [at_q 100; at_q 200; at_q 300]].
Proof.
  destruct h1_view as (v & Ev & A & O & U & D & Dv & Uv). assert (Eo : see_operand h1 (Object 18) = Some (Some (lit "1"), ([3], [at_q 1; at_q 2; gone]))) by (vm_compute; reflexivity).
  destruct (C49_new_partial plus sum_units (add_subtract plus) (Object 18) h1 18 v _ _ (lit "1") (sum_or_difference plus) Ev A O U Eo) as (c & h' & r & E1 & Cr & E2 & E3); [rewrite Uv; reflexivity|apply D|rewrite Dv; reflexivity|reflexivity|rewrite Dv; split; [cbn; lia|repeat constructor]|].
  exists c, h'. split; [exact E1|]. exists v, (outcome r (lit "1") (line_of (lit "unary_func")) v). split; [exact Ev|]. split; [rewrite E2, refreshed_all_date; [reflexivity|exact D]|]. split; [exact E3|]. rewrite Dv in Cr. destruct r as [rs rc]. destruct Cr as (S & Wr & El). cbn [fst] in S. subst rs. clear E1 E2 E3 A O U D.
  assert (R : rc = [at_q 2; at_q 4; gone]).
  { unfold whole in Wr. cbn in Wr. destruct rc as [|x0 [|x1 [|x2 [|? ?]]]]; try discriminate Wr. destruct (El [0]) as (a & b & E4 & E5 & E6); [repeat constructor|]. destruct (El [1]) as (a' & b' & E4' & E5' & E6'); [repeat constructor|]. destruct (El [2]) as (a2 & b2 & E4'' & E5'' & E6''); [repeat constructor|]. cbn in E4, E5, E6, E4', E5', E6', E4'', E5'', E6''. clear - E4 E5 E6 E4' E5' E6' E4'' E5'' E6''. injection E4 as <-. injection E5 as <-. injection E6 as ->. injection E4' as <-. injection E5' as <-. injection E6' as ->. injection E4'' as <-. injection E5'' as <-. injection E6'' as ->. vm_compute. reflexivity. }
  subst rc. vm_compute in Ev. injection Ev as <-. repeat split; vm_compute; reflexivity.
Qed.
Example C49_case_units : add_subtract plus (Object 10) false 18 h1 = Raises NotImplementedError /\ (exists c h' v, multiply_divide times_q joined (Object 10) false 18 h1 = Ok (c, h') /\ see_data h' c = Some v /\ v_data (fst v) = ([3], [at_q 10; at_q 40; gone]) /\ v_units (v_md (fst v)) = lit "1 deg") /\
  multiply_divide times_q joined (Cube (lit "m") 1) true 10 h1 <> Raises ValueError /\ (forall op, add_subtract op (Number (at_q 5)) false 18 h0 = Raises ValueError).
Proof.
  split; [vm_compute; reflexivity|]. split.
  - eexists. eexists. eexists. split; [vm_compute; reflexivity|]. split; [vm_compute; reflexivity|]. split; reflexivity.
  - split; [vm_compute; discriminate|]. intros op. vm_compute. reflexivity.
Qed.
(** two rows of three, plus a row, plus a column, plus a number; a row of two does not fit *)
Example C49_case_broadcast : let a := ([2; 3], map at_q [1; 2; 3; 4; 5; 6]%Q) in
  elementwise plus [2; 3] ([3], map at_q [10; 20; 30]%Q) a = Ok ([2; 3], map at_q [11; 22; 33; 14; 25; 36]%Q) /\
  elementwise plus [2; 3] ([2; 1], map at_q [10; 20]%Q) a = Ok ([2; 3], map at_q [11; 12; 13; 24; 25; 26]%Q) /\
  elementwise plus [2; 3] ([], [at_q 1]) a = Ok ([2; 3], map at_q [2; 3; 4; 5; 6; 7]%Q) /\ fits [3] [2; 3] /\ fits [2; 1] [2; 3] /\ ~ fits [2] [2; 3] /\ elementwise plus [2; 3] ([2], map at_q [1; 2]%Q) a = Raises ValueError /\ against [2; 1] [1; 2] = [1; 0].
Proof.
  cbv zeta. split; [vm_compute; reflexivity|]. split; [vm_compute; reflexivity|]. split; [vm_compute; reflexivity|]. split; [split; [cbn; lia|repeat constructor]|]. split; [split; [cbn; lia|constructor; [left; reflexivity|constructor; [right; reflexivity|constructor]]]|]. split; [|split; vm_compute; reflexivity].
  intros [_ F]. cbn in F. inversion F as [|? ? ? ? [X|X] _]; discriminate X.
Qed.
Example C49_case_in_place : own_places h1 18 /\ exists h' w, add_subtract plus (Number (at_q 5)) true 18 h1 = Ok (18, h') /\ see_data h' 18 = Some w /\ v_data (fst w) = ([3], [at_q 6; at_q 7; gone]) /\ see_coord h' 10 = see_coord h1 10 /\ buffer_of h1 18 = Some 0 /\ ~ reach h1 10 0 /\ ~ reach h1 10 3.
Proof.
  assert (R : forall l, reach h1 10 l -> In l [5; 6; 7; 8; 9; 10]).
  { intros l R. assert (C : closed h1 (fun l => In l [5; 6; 7; 8; 9; 10])). { split; [intros x Hx; cbn in Hx; cbn; lia|]. intros x o r E Hx I. cbn [In] in Hx. repeat (destruct Hx as [<-|Hx]; [cbn in E; injection E as <-; cbn in I; cbn; tauto|]). contradiction. } apply (closed_reach h1 (fun l => In l [5; 6; 7; 8; 9; 10]) 10 l C); [cbn; tauto|exact R]. }
  split.
  - exists 1, [3], 0, [0; 1; 2], [at_q 1; at_q 2; gone]. split; [reflexivity|]. split; [reflexivity|]. split; [reflexivity|]. split; [apply_nodup|repeat constructor].
  - eexists. eexists. split; [vm_compute; reflexivity|]. split; [vm_compute; reflexivity|]. split; [reflexivity|]. split; [vm_compute; reflexivity|]. split; [reflexivity|]. split; intros X; apply R in X; cbn in X; intuition discriminate.
Qed.
(** Not so: in place, other data made with the same array changes too; the range in the metadata stays that of the old values; a sum brings the metadata of its
    left operand up to date, so it does change it if they were not; and a sum and a difference leave the same line in the history. *)
Theorem C49_refuted :
  (exists h d e v w h', see_data h e = Some v /\ d <> e /\ add_subtract plus (Number (at_q 5)) true d h = Ok (d, h') /\ see_data h' e = Some w /\ v_data (fst w) <> v_data (fst v)) /\
  (exists h d h' w, add_subtract plus (Number (at_q 5)) true d h = Ok (d, h') /\ see_data h' d = Some w /\ v_range (v_md (fst w)) <> range_of (snd (v_data (fst w)))) /\
  (exists h d c h' v w, see_data h d = Some v /\ add_subtract plus (Number (at_q 5)) false d h = Ok (c, h') /\ see_data h' d = Some w /\ w <> v) /\
  (forall op1 op2 h d o c1 h1 c2 h2 v1 v2, add_subtract op1 o true d h = Ok (c1, h1) -> add_subtract op2 o true d h = Ok (c2, h2) -> see_left h1 d = Some v1 -> see_left h2 d = Some v2 -> own_places h d -> see_left h d <> None -> see_operand h o <> None -> v_md v1 = v_md v2).
Proof.
  split; [|split; [|split]].
  - destruct (make_new 1 (lit "w") false 18 h1) as [[c h2]|] eqn:E1; vm_compute in E1; [|discriminate E1]. injection E1 as Ec Eh. exists h2, 18, c. eexists. eexists. eexists. rewrite <- Eh, <- Ec. split; [vm_compute; reflexivity|]. split; [discriminate|]. split; [vm_compute; reflexivity|]. split; [vm_compute; reflexivity|]. discriminate.
  - exists h1, 18. eexists. eexists. split; [vm_compute; reflexivity|]. split; [vm_compute; reflexivity|]. discriminate.
  - destruct (run [SetPoint Whole 0 (at_q 7)] 18 h1) as [[[] h2]|] eqn:E1; vm_compute in E1; [|discriminate E1]. injection E1 as E1. exists h2, 18. rewrite <- E1. eexists. eexists. eexists. eexists. split; [vm_compute; reflexivity|]. split; [vm_compute; reflexivity|]. split; [vm_compute; reflexivity|]. discriminate.
  - intros op1 op2 h d o c1 g1 c2 g2 v1 v2 E1 E2 S1 S2 Ow Hl Ho. destruct (see_left h d) as [v|] eqn:E; [|congruence]. destruct (see_operand h o) as [[ou oa]|] eqn:Eo; [|congruence].
    rewrite (add_at op1 o true h d v ou oa E Eo) in E1. rewrite (add_at op2 o true h d v ou oa E Eo) in E2. destruct (sum_units (v_units (v_md v)) ou) as [u|]; [|discriminate E1].
    assert (G : forall op g w c, math_op (elementwise op (v_shape (v_md v)) oa) (lit "unary_func") u true d h = Ok (c, g) -> see_left g d = Some w -> v_md w = noted u (line_of (lit "unary_func")) (v_md v)).
    { intros op g w c X Y. apply (in_place_md _ _ _ _ _ _ _ _ _ E Ow X Y). }
    rewrite (G _ _ _ _ E1 S1), (G _ _ _ _ E2 S2). reflexivity.
Qed.
Print Assumptions C49_refuted.
