(** Numerical and mask helpers of cis/utils.py. *)
From Verif Require Import Base QBase.
From Coq Require Import Qabs.
Open Scope Q_scope.

(** ** calculate_histogram_bin_edges, cis/utils.py:47-91 (linear axis, or a step given by the user)
    Floats and Decimals are exact rationals.  The log-spaced branch (lines 83-88: [logspace]) is not modelled. *)
Definition list_min (l : list Q) : res Q := match l with [] => Raises ValueError | x :: l => Ok (fold_left Qmin l x) end.
Definition list_max (l : list Q) : res Q := match l with [] => Raises ValueError | x :: l => Ok (fold_left Qmax l x) end.
(** Python's [a or b] for an optional number: 0 and None are false. *)
Definition q_or (a : option Q) (b : res Q) : res Q :=
  match a with Some q => if Qeqb q 0 then b else Ok q | None => b end.
(** Decimal's [%]: the remainder has the sign of the dividend. *)
Definition Qtrunc (q : Q) : Z := if Qleb 0 q then Qfloor q else Qceiling q.
Definition dec_mod (a b : Q) : Q := a - b * inject_Z (Qtrunc (a / b)).
(** [sys.float_info.min] *)
Definition float_min : Q := 1 # (2 ^ 1022).

(** utils.py:75-82, the while loop; [n] is the number of edges collected so far. *)
Fixpoint edges_loop (fuel : nat) (user_step : bool) (step stop i : Q) (n : nat) : res (list Q) :=
  match fuel with
  | O => Raises OutOfFuel
  | S fuel =>
    if Qleb float_min (Qabs (i - stop)) && Qltb i stop then
      if negb user_step && (n =? 11)%nat then Ok []
      else bind (edges_loop fuel user_step step stop (i + step) (S n)) (fun r => Ok (i :: r))
    else Ok []
  end.
Definition histogram_bin_edges (fuel : nat) (data : list Q) (user_min user_max step : option Q) : res (list Q) :=
  bind (q_or user_min (list_min data)) (fun min_val =>
  bind (q_or user_max (list_max data)) (fun max_val =>
    let val_range := max_val - min_val in
    let stp := match step with Some s => s | None => val_range / 10 end in
    let user_step := match step with Some _ => true | None => false end in
    if Qeqb stp 0 then Raises ZeroDivisionError  (* decimal.DivisionUndefined / InvalidOperation *)
    else
      let x := dec_mod val_range stp in
      let stop := if Qltb x (1 # 10000000) then max_val + stp else max_val in
      edges_loop fuel user_step stp stop min_val 0)).

(** ** array_equal_including_nan, cis/utils.py:172-195.  An element is a number or NaN ([None]); an array is its shape and
    its elements in row-major order (nditer pairs elements by position). *)
Definition fval := option Q.
(** Python [a != b] on floats *)
Definition f_ne (a b : fval) : bool := match a, b with Some x, Some y => negb (Qeqb x y) | _, _ => true end.
Record ndarray := mkArr { arr_shape : list nat; arr_elems : list fval }.
Fixpoint nan_loop (ps : list (fval * fval)) : bool :=
  match ps with
  | [] => true
  | (i, j) :: ps => if f_ne i i then nan_loop ps else if f_ne i j then false else nan_loop ps
  end.
Definition list_nat_eqb (a b : list nat) : bool := if list_eq_dec Nat.eq_dec a b then true else false.
Definition array_equal_including_nan (a b : ndarray) : res bool :=
  if negb (list_nat_eqb (arr_shape a) (arr_shape b)) then Ok false
  else match combine (arr_elems a) (arr_elems b) with
       | [] => Raises ValueError   (* nditer: iteration of zero-sized operands is not enabled *)
       | ps => Ok (nan_loop ps)
       end.

(** ** Masks.  A masked array is its elements and its mask; [None] is numpy's nomask.
    [arr_in] is a plain array ([None]) or a masked array with its mask. *)
Section Masks.
Context {A : Type}.
Inductive anarray :=
| Plain (data : list A)
| Masked (data : list A) (mask : option (list bool)).
Definition an_data (a : anarray) : list A := match a with Plain d => d | Masked d _ => d end.
(** np.ma.getmaskarray *)
Definition getmaskarray (a : anarray) : list bool :=
  match a with
  | Plain d => repeat false (length d)
  | Masked d None => repeat false (length d)
  | Masked d (Some m) => m
  end.
Definition orl (m1 m2 : list bool) : list bool := map (fun p : bool * bool => fst p || snd p) (combine m1 m2).
(** cis/utils.py:152-170 *)
Definition apply_mask_to_numpy_array (a : anarray) (mask : option (list bool)) : anarray :=
  match mask with
  | None => a
  | Some m => if existsb (fun b => b) m then Masked (an_data a) (Some (orl (getmaskarray a) m)) else a
  end.
(** [ma.masked_array(a, m)]: keep_mask, the new mask is the union with the old one. *)
Definition masked_array (a : anarray) (m : list bool) : anarray := Masked (an_data a) (Some (orl (getmaskarray a) m)).

(** numpy.ma comparison [missing_value == mdata]: masked where mdata is masked, and the comparison elsewhere;
    [masked_where(cond, a)]: [make_mask] fills the condition's own masked entries with true, then union with the old mask. *)
Variable eqb : A -> A -> bool.
Definition masked_where (v : A) (a : anarray) : anarray :=
  Masked (an_data a) (Some (orl (map (fun p : A * bool => snd p || eqb v (fst p)) (combine (an_data a) (getmaskarray a))) (getmaskarray a))).
(** cis/utils.py:140-150 *)
Definition create_masked_array_for_missing_values (a : anarray) (missing : list (option A)) : anarray :=
  fold_left (fun acc mv => match mv with Some v => masked_where v acc | None => acc end) missing a.
(** cis/utils.py:135-137: [ma.array(data, mask = data == missing_val)] on a plain array *)
Definition create_masked_array_for_missing_data (d : list A) (v : A) : anarray := Masked d (Some (map (fun x => eqb x v) d)).

(** cis/utils.py:22-44, along axis 0 of one-dimensional arrays (a row of a higher-dimensional array is an element). *)
Definition is_masked_array (a : anarray) : bool := match a with Plain _ => false | Masked _ _ => true end.
Definition ma_concat2 (a b : anarray) : anarray :=
  Masked (an_data a ++ an_data b) (Some (getmaskarray a ++ getmaskarray b)).
Definition concatenate (arrays : list anarray) : res anarray :=
  match arrays with
  | [] => Raises IndexError
  | a :: rest =>
    let cc := if existsb is_masked_array arrays then ma_concat2 else (fun x y => Plain (an_data x ++ an_data y)) in
    Ok (fold_left cc rest a)
  end.

(** cis/utils.py:94-133; the result as rows of (value, masked). *)
Definition expand_1d_to_2d_array (a : anarray) (len : nat) (axis0 : bool) : list (list (A * bool)) :=
  let row := combine (an_data a) (getmaskarray a) in
  if axis0 then repeat row len else map (fun c => repeat c len) row.
End Masks.
Arguments anarray : clear implicits.
(** cis/utils.py:384-399 *)
Definition apply_intersection_mask_to_two_arrays {A B} (a : anarray A) (b : anarray B) : anarray A * anarray B :=
  (masked_array a (getmaskarray b), masked_array b (getmaskarray a)).
