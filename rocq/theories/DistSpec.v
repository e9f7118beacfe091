(** Specification for C53: how a decimal number is written and what it is worth. *)
From Coq Require Import Ascii.
From Verif Require Import Base PyStr QBase.
Open Scope Q_scope.

Inductive sgn := NoSign | Plus | Minus.
Definition render_sign (s : sgn) : str := match s with NoSign => [] | Plus => ["+"%char] | Minus => ["-"%char] end.
Definition sgn_value (s : sgn) : Z := match s with Minus => -1 | _ => 1 end.
(** a digit is a number below ten *)
Definition render_digit (d : nat) : ascii := ascii_of_nat (48 + d).
Fixpoint digits_value (ds : list nat) (acc : Z) : Z := match ds with [] => acc | d :: ds => digits_value ds (10 * acc + Z.of_nat d) end.

(** sign, digits before the point, optional point with digits after it, optional exponent *)
Record decimal := mkDec { d_sign : sgn; d_int : list nat; d_frac : option (list nat); d_exp : option (bool * sgn * list nat) }.
Definition decimal_ok (d : decimal) : Prop :=
  Forall (fun x => (x < 10)%nat) (d_int d)
  /\ match d_frac d with Some f => Forall (fun x => (x < 10)%nat) f | None => True end
  /\ (d_int d = [] -> exists x f, d_frac d = Some (x :: f))
  /\ match d_exp d with Some (_, _, e) => e <> [] /\ Forall (fun x => (x < 10)%nat) e | None => True end.
Definition render (d : decimal) : str :=
  render_sign (d_sign d) ++ map render_digit (d_int d)
  ++ match d_frac d with Some f => "."%char :: map render_digit f | None => [] end
  ++ match d_exp d with Some (up, s, e) => (if up : bool then "E"%char else "e"%char) :: render_sign s ++ map render_digit e | None => [] end.
Definition value (d : decimal) : Q :=
  let frac := match d_frac d with Some f => f | None => [] end in
  inject_Z (sgn_value (d_sign d))
  * (inject_Z (digits_value (d_int d) 0) + inject_Z (digits_value frac 0) / Qpower 10 (Z.of_nat (length frac)))
  * Qpower 10 (match d_exp d with Some (_, s, e) => sgn_value s * digits_value e 0 | None => 0 end).

Definition is_letter (c : ascii) : Prop := let n := nat_of_ascii c in (65 <= n <= 90 \/ 97 <= n <= 122)%nat.
Definition blank (c : ascii) : Prop := c = " "%char.
