(** Coordinates of MODIS L2 variables and their interpolation to 1 km, cis/data_io/products/MODIS.py:224-312. *)
From Coq Require Import String.
From Verif Require Import Base PyStr QBase DateModel AeroModel UngrModel HdfModel.
From Coq Require Import List.
Import ListNotations.
Open Scope string_scope. Open Scope list_scope. Open Scope nat_scope. Notation length := List.length.

(** the Python the package runs with *)
Inductive python := Py2 | Py3.
(** a two-dimensional array as _get_MODIS_SDS_data gives it: the number in each cell, row by row, and whether it is masked *)
Record grid := mkGrid { g_n : nat; g_m : nat; g_cells : list (Q * bool) }.
Definition raw (g : grid) (k l : nat) : Q := fst (nth (k * g_m g + l) (g_cells g) (0%Q, true)).
Definition shown (g : grid) : list (option Q) := map (fun c : Q * bool => if snd c then None else Some (fst c)) (g_cells g).
(** utils.concatenate of the arrays of all files, cis/utils.py:21-43 *)
Definition glue (a b : grid) : res grid := if g_m a =? g_m b then Ok (mkGrid (g_n a + g_n b) (g_m a) (g_cells a ++ g_cells b)) else Raises ValueError.
Definition glue_all (l : list grid) : res grid := match l with [] => Raises IndexError | a :: l => fold_left (fun acc b => bind acc (fun a => glue a b)) l (Ok a) end.

(** ** __field_interpolate, 239-258 *)
(** the indices start:stop:step of an axis of length n; step is positive *)
Definition clip (n : nat) (x : Z) : nat := Z.to_nat (Z.min (Z.of_nat n) (Z.max 0 (if x <? 0 then x + Z.of_nat n else x)%Z)).
Fixpoint stepping (fuel i stop step : nat) : list nat := match fuel with 0 => [] | S fuel => if i <? stop then i :: stepping fuel (i + step) stop step else [] end.
Definition slice (n : nat) (start : Z) (stop : option Z) (step : nat) : list nat :=
  let stop := match stop with Some s => clip n s | None => n end in stepping stop (clip n start) stop step.
(** one line of cells along an axis; None: NaN *)
Definition line := nat -> option Q.
Definition arith (f : Q -> Q -> Q) (a b : option Q) : option Q := match a, b with Some a, Some b => Some (f a b) | _, _ => None end.
Fixpoint index_of (r : nat) (l : list nat) : option nat := match l with [] => None | x :: l => if x =? r then Some 0 else option_map S (index_of r l) end.
(** output[dst] = i * ((output[hi] - output[lo]) / float(factor)) + output[lo], the right-hand side first *)
Definition assign (factor i : nat) (dst hi lo : list nat) (g : line) : line := fun r =>
  match index_of r dst with
  | Some k => let h := g (nth k hi 0) in let l := g (nth k lo 0) in
              arith Qplus (option_map (fun d => inject_Z (Z.of_nat i) * (d / inject_Z (Z.of_nat factor)))%Q (arith Qminus h l)) l
  | None => g r
  end.
(** -1 * factor / 2 + 1: a whole number in Python 2; a float in Python 3, which is no index *)
Definition stop_index (p : python) (factor : nat) : res Z := match p with Py2 => Ok (- Z.of_nat factor / 2 + 1)%Z | Py3 => Raises TypeError end.
(** the loop over i for one axis of length n, 251-258.  Simplification: lengths that differ are a ValueError, although numpy spreads a length of one. *)
Definition interpolate_axis (p : python) (factor n : nat) (g : line) : res line :=
  let half := Z.of_nat (factor / 2) in let fz := Z.of_nat factor in
  fold_left (fun acc i => bind acc (fun g =>
    bind (stop_index p factor) (fun stop =>
    let dst := slice n (half + Z.of_nat i) (Some stop) factor in
    let hi := slice n (half + fz) None factor in
    let lo := slice n half (Some (- fz)%Z) factor in
    if (length dst =? length hi) && (length hi =? length lo) then Ok (assign factor i dst hi lo g) else Raises ValueError)))
  (seq 1 factor) (Ok g).
(** 248-249: the numbers, masked or not, spread over an array of NaN *)
Definition spread (factor : nat) (data : grid) (r c : nat) : option Q :=
  match index_of r (slice (factor * g_n data) (Z.of_nat (factor / 2)) None factor), index_of c (slice (factor * g_m data) (Z.of_nat (factor / 2)) None factor) with
  | Some k, Some l => Some (raw data k l)
  | _, _ => None
  end.
(** first along the columns (all rows [i, :] at once), then along the rows.  Whether it fails depends on the lengths only. *)
Definition interpolate_lines (p : python) (factor n : nat) (lines : nat -> line) : res (nat -> line) :=
  match interpolate_axis p factor n (fun _ => None) with
  | Raises e => Raises e
  | Ok _ => Ok (fun c r => match interpolate_axis p factor n (lines c) with Ok g => g r | Raises _ => None end)
  end.
Definition field_interpolate (p : python) (factor : nat) (data : grid) : res (nat -> nat -> option Q) :=
  bind (interpolate_lines p factor (factor * g_n data) (fun c r => spread factor data r c)) (fun out =>
  interpolate_lines p factor (factor * g_m data) (fun r c => out c r)).
Definition flatten (n m : nat) (a : nat -> nat -> option Q) : list (option Q) := flat_map (fun r => map (a r) (seq 0 m)) (seq 0 n).

(** ** reading *)
Record kfile := mkK { k_lat : grid; k_lon : grid; k_time : grid; k_var : grid }.
(** __get_data_scale, 224-237: the first of 1km, 5km, 10km in the name of the variable's first dimension *)
Definition data_scale (dim : str) : option str := find (fun s => contains s dim) [lit "1km"; lit "5km"; lit "10km"].
Definition apply_interpolation (dim : str) : bool := match data_scale dim with Some s => str_eqb s (lit "1km") | None => false end.
Definition points_of (p : python) (interpolate : bool) (g : grid) : res (list nat * list (option Q)) :=
  if interpolate then bind (field_interpolate p 5 g) (fun a => Ok ([5 * g_n g; 5 * g_m g], flatten (5 * g_n g) (5 * g_m g) a)) else Ok ([g_n g; g_m g], shown g).
(** 260-293 and 298-314, for a variable of two dimensions; [dim]: the name of its first dimension in the first file.  The time is never interpolated.
    Points without a position are left out when the data are used (UngriddedData._post_process). *)
Definition read_l2 (p : python) (dim : str) (files : list kfile) : res udata :=
  let interpolate := apply_interpolation dim in
  bind (glue_all (map k_lat files)) (fun lat => bind (points_of p interpolate lat) (fun la =>
  bind (glue_all (map k_lon files)) (fun lon => bind (points_of p interpolate lon) (fun lo =>
  bind (glue_all (map k_time files)) (fun time =>
  bind (glue_all (map k_var files)) (fun var =>
  post_process (mkU [mkCoord (Some (lit "latitude")) [] (lit "Latitude") (lit "Y") (fst la) (snd la); mkCoord (Some (lit "longitude")) [] (lit "Longitude") (lit "X") (fst lo) (snd lo);
                     mkCoord (Some (lit "time")) [] (lit "Scan_Start_Time") (lit "T") [g_n time; g_m time] (map (option_map since_1993) (shown time))]
                    [g_n var; g_m var] (shown var)))))))).
