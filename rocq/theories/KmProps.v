(** C83: where the pixels of a MODIS L2 variable are. *)
From Coq Require Import String.
From Verif Require Import Base PyStr QBase AeroSpec UngrModel UngrSpec KmModel KmSpec KmProofs.
From Coq Require Import List Lia.
Import ListNotations.
Open Scope string_scope. Open Scope list_scope. Open Scope nat_scope. Notation length := List.length.

(** A variable on the grid of the coordinates: all pixels of all files, in order, each with its own latitude, longitude and time; those without a complete position are left out. *)
Theorem C83_partial : forall p dim files m, ~ mentions (lit "1km") dim -> files <> [] -> Forall (one_shape m) files ->
  exists d raw, read_l2 p dim files = Ok d /\ Forall2 own_cell (all_cells files) raw /\ rows d = filter located raw /\ map c_std (u_coords d) = [Some (lit "latitude"); Some (lit "longitude"); Some (lit "time")].
Proof. exact coarse_read. Qed.
Print Assumptions C83_partial.
(** Refuted: a variable at 1 km, for which the code interpolates the positions, cannot be used at all: in Python 3 the interpolation fails, in Python 2 the times, which are not interpolated, do not fit. *)
Theorem C83_refuted : forall dim files m v, mentions (lit "1km") dim -> files <> [] -> Forall (placed m) files -> glue_all (map k_var files) = Ok v -> full v ->
  2 <= list_sum (map (fun f => g_n (k_time f)) files) * m -> read_l2 Py2 dim files = Raises ValueError /\ read_l2 Py3 dim files = Raises TypeError.
Proof. exact fine_read. Qed.
Print Assumptions C83_refuted.
(** The interpolation itself (Python 2), by any odd factor from 3: a field of [factor] times as many pixels each way, linear between the middles of the old ones each way; the pixels around them have nothing. *)
Theorem C83_interpolation : forall h g, 1 <= h -> let f := 2 * h + 1 in exists out, field_interpolate Py2 f g = Ok out /\
  (forall r c k j l i, lies f (g_n g) r k j -> lies f (g_m g) c l i ->
     exists v, out r c = Some v /\ (v == between f i (between f j (raw g k l) (raw g (S k) l)) (between f j (raw g k (S l)) (raw g (S k) (S l))))%Q) /\
  (forall r c, (forall k j, ~ lies f (g_n g) r k j) \/ (forall l i, ~ lies f (g_m g) c l i) -> out r c = None).
Proof. intros h g H f. exact (interpolated h H g). Qed.
Print Assumptions C83_interpolation.
(** Refuted in Python 3, whatever the field. *)
Theorem C83_interpolation_refuted : forall factor g, 1 <= factor -> field_interpolate Py3 factor g = Raises TypeError.
Proof. exact py3. Qed.
Print Assumptions C83_interpolation_refuted.
(** Refuted: missing positions are taken for numbers, and between 179 and -179 degrees east there are longitudes near 107. *)
Theorem C83_missing_refuted : exists g out, g_cells g = [(10, false); (-999, true)]%Q /\ field_interpolate Py2 5 g = Ok out /\ exists v, out 2 7 = Some v /\ (v == -999)%Q.
Proof. exists (mkGrid 1 2 [(10, false); (-999, true)]%Q). eexists. split; [reflexivity|]. split; [vm_compute; reflexivity|]. eexists. split; [vm_compute; reflexivity|]. reflexivity. Qed.
Print Assumptions C83_missing_refuted.
Theorem C83_dateline_refuted : exists g out, g_cells g = [(179, false); (-179, false)]%Q /\ field_interpolate Py2 5 g = Ok out /\ exists v, out 2 3 = Some v /\ (v == 537 # 5)%Q.
Proof. exists (mkGrid 1 2 [(179, false); (-179, false)]%Q). eexists. split; [reflexivity|]. split; [vm_compute; reflexivity|]. eexists. split; [vm_compute; reflexivity|]. reflexivity. Qed.
Print Assumptions C83_dateline_refuted.
(** Examples *)
Definition g22 (a b c d : Q) : grid := mkGrid 2 2 [(a, false); (b, false); (c, false); (d, true)]%Q.
Definition f22 : kfile := mkK (g22 1 2 3 4) (g22 10 20 30 40) (g22 0 0 86400 0) (g22 7 8 9 10).
Example ex_shape : one_shape 2 f22 /\ placed 2 f22.
Proof. repeat split. Qed.
Example ex_read : match read_l2 Py3 (lit "Cell_Along_Swath_5km:mod06") [f22; f22] with
  Ok d => map (fun r => (map (option_map Qred) (fst r), snd r)) (rows d) = let three := [([Some 1; Some 10; Some 143541], Some 7); ([Some 2; Some 20; Some 143541], Some 8); ([Some 3; Some 30; Some 143542], Some 9)]%Q in three ++ three | Raises _ => False end.
Proof. vm_compute. reflexivity. Qed.
Example ex_fine : mentions (lit "1km") (lit "Cell_Along_Swath_1km:mod06").
Proof. exists (lit "Cell_Along_Swath_"), (lit ":mod06"). reflexivity. Qed.
Example ex_between : match field_interpolate Py2 5 (g22 0 5 10 20) with Ok out => map (fun c => option_map Qred (out 3 c)) (seq 0 10) = [None; None; Some 2; Some (16 # 5); Some (22 # 5); Some (28 # 5); Some (34 # 5); Some 8; None; None]%Q | Raises _ => False end.
Proof. vm_compute. reflexivity. Qed.
