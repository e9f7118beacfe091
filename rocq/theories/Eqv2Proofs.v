From Verif Require Import Base PyStr QBase MtModel AeroModel EqvModel EqvSpec EqvProofs.
From Coq Require Import List Arith. Import ListNotations. Open Scope list_scope. Open Scope nat_scope.
(** One value against many (C107): it stands for a copy of itself at every place, on the side that it is on *)
Theorem single U all_masked i j m m' x d : length d <> 1 ->
  equal U all_masked (Data i m [x]) (Data j m' d) = equal U all_masked (Data i m (repeat x (length d))) (Data j m' d) /\
  equal U all_masked (Data i m d) (Data j m' [x]) = equal U all_masked (Data i m d) (Data j m' (repeat x (length d))).
Proof.
  intros N. cbn [equal]. unfold lazy_eq, allclose, broadcast. rewrite repeat_length, !Nat.eqb_refl. cbn [length]. rewrite (proj2 (Nat.eqb_neq 1 (length d))) by auto. rewrite (proj2 (Nat.eqb_neq (length d) 1)) by auto.
  assert (A : map (fun y => (x, y)) d = combine (repeat x (length d)) d) by (clear N; induction d as [|y d IH]; cbn; [|rewrite IH]; reflexivity).
  assert (B : map (fun y => (y, x)) d = combine d (repeat x (length d))) by (clear N A; induction d as [|y d IH]; cbn; [|rewrite IH]; reflexivity).
  rewrite A, B. split; [reflexivity|]. destruct d as [|y [|z d]]; [reflexivity|contradiction N; reflexivity|reflexivity].
Qed.
