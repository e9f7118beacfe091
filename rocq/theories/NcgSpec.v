(** Specification for C75: the cube that is read, its heights and pressures, its times. *)
From Coq Require Import String.
From Verif Require Import Base PyStr QBase NcgModel.
From Coq Require Import List.
Import ListNotations.
Open Scope string_scope. Open Scope list_scope. Open Scope nat_scope. Notation length := List.length.

Definition has_name (v : str) (c : gcube) : Prop := q_var c = Some v \/ q_std c = Some v \/ q_long c = Some v.
Definition has_std (n : string) (c : gcube) : Prop := q_std c = Some (lit n).
Inductive picks (P : gcube -> Prop) : list gcube -> list gcube -> Prop :=
| picks_nil : picks P [] []
| picks_yes c l m : P c -> picks P l m -> picks P (c :: l) (c :: m)
| picks_no c l m : ~ P c -> picks P l m -> picks P (c :: l) m.
Section Ncg.
Variable together : list gcube -> option gcube.
Variable std_time : str -> Q -> option Q.
(** the cube the files have for these: the only one, or what iris makes of them *)
Definition one_cube (raw : list gcube) (P : gcube -> Prop) (c : gcube) : Prop := exists l, picks P raw l /\ (l = [c] \/ (2 <= length l /\ together l = Some c)).
Definition no_cube (raw : list gcube) (P : gcube -> Prop) : Prop := exists l, picks P raw l /\ (l = [] \/ (2 <= length l /\ together l = None)).

(** cells, and where they are: the names and points of their dimensions *)
Definition cell (c : gcube) (i : list nat) : Prop := Forall2 (fun j n => j < n) i (q_shape c).
Inductive at_place : list (option dimc) -> list nat -> list (option str * option Q) -> Prop :=
| at_nil : at_place [] [] []
| at_coord k ks j js x ps : nth_error (k_points k) j = Some x -> at_place ks js ps -> at_place (Some k :: ks) (j :: js) ((k_std k, Some x) :: ps)
| at_none ks j js ps : at_place ks js ps -> at_place (None :: ks) (j :: js) ((None, None) :: ps).
(** the value of an auxiliary coordinate at a cell *)
Definition aux_at (a : auxc) (i : list nat) : option Q := x_at a (map (fun d => nth d i 0) (x_dims a)).
(** heights and pressures: the variable with that standard name, if its dimensions are as long as the first ones of the cube *)
Definition fits (g c : gcube) : Prop := exists more, q_shape c = q_shape g ++ more.
Definition overhangs (g c : gcube) : Prop := exists n more, q_shape g = q_shape c ++ n :: more.
Definition source (raw : list gcube) (n : string) (g : gcube) : Prop := one_cube raw (has_std n) g.
Definition usable (raw : list gcube) (n : string) (c : gcube) : Prop := exists g, source raw n g /\ fits g c.
Definition gives (c g : gcube) (std units : string) (f : Q -> Q) (a : auxc) : Prop :=
  x_std a = Some (lit std) /\ x_units a = lit units /\ forall i, cell c i -> aux_at a i = option_map f (q_at g (firstn (length (q_shape g)) i)).
Inductive heights (raw : list gcube) (c : gcube) : list auxc -> Prop :=
| from_potential g a : source raw "geopotential" g -> fits g c -> gives c g "altitude" "meter" (fun v => v / (980665 # 100000))%Q a -> heights raw c [a]
| from_height g a : ~ usable raw "geopotential" c -> source raw "geopotential_height" g -> fits g c -> gives c g "altitude" "meter" (fun v => v) a -> heights raw c [a]
| no_heights : ~ usable raw "geopotential" c -> ~ usable raw "geopotential_height" c -> heights raw c [].
Inductive pressures (raw : list gcube) (c : gcube) : list auxc -> Prop :=
| from_pressure g a : source raw "air_pressure" g -> fits g c -> gives c g "air_pressure" "Pa" (fun v => v) a -> pressures raw c [a]
| no_pressures : ~ usable raw "air_pressure" c -> pressures raw c [].
(** the time *)
Definition time_dim (k : option dimc) : Prop := exists d, k = Some d /\ k_std d = Some (lit "time").
Definition time_aux (a : auxc) : Prop := x_std a = Some (lit "time").
Definition one_time_dim (c : gcube) : Prop := (exists pre k post, q_dims c = pre ++ k :: post /\ time_dim k /\ Forall (fun k => ~ time_dim k) (pre ++ post)) /\ Forall (fun a => ~ time_aux a) (q_aux c).
Definition one_time_aux (c : gcube) (a : auxc) : Prop := Forall (fun k => ~ time_dim k) (q_dims c) /\ exists pre post, q_aux c = pre ++ a :: post /\ time_aux a /\ Forall (fun b => ~ time_aux b) (pre ++ post).
Inductive in_standard_time : option dimc -> option dimc -> Prop :=
| a_time d d' : k_std d = Some (lit "time") -> k_std d' = k_std d -> k_long d' = k_long d -> k_var d' = k_var d -> k_units d' = lit "days since 1600-01-01 00:00:00" -> Forall2 (fun x y => std_time (k_units d) x = Some y) (k_points d) (k_points d') -> in_standard_time (Some d) (Some d')
| another k : ~ time_dim k -> in_standard_time k k.
Definition convertible (c : gcube) : Prop := forall k, In (Some k) (q_dims c) -> k_std k = Some (lit "time") -> forall x, In x (k_points k) -> exists y, std_time (k_units k) x = Some y.
(** the same variable *)
Definition same_variable (c r : gcube) : Prop := q_var r = q_var c /\ q_std r = q_std c /\ q_long r = q_long c /\ q_units r = q_units c /\ q_shape r = q_shape c /\ q_at r = q_at c /\ q_atts r = q_atts c.
Definition times_read (c r : gcube) : Prop := (one_time_dim c /\ Forall2 in_standard_time (q_dims c) (q_dims r)) \/ (~ one_time_dim c /\ q_dims r = q_dims c).
(** the cube has not got coordinates of these variable names already; its time is not an auxiliary coordinate over dimensions; no height or pressure has more dimensions after the same ones *)
Definition plain_cube (c : gcube) : Prop := (forall a, In a (q_aux c) -> x_var a <> Some (lit "altitude") /\ x_var a <> Some (lit "air_pressure")) /\ (forall k, In (Some k) (q_dims c) -> k_var k <> Some (lit "altitude") /\ k_var k <> Some (lit "air_pressure")).
Definition vertical : list string := ["geopotential"; "geopotential_height"; "air_pressure"]%string.
End Ncg.
(** the names offered *)
Definition space_time (of_space_or_time : str -> bool) (c : gcube) : Prop := forall k, In (Some k) (q_dims c) -> 1 < length (k_points k) -> of_space_or_time (k_units k) = true.
Definition nonempty_name (o : option str) (s : str) : Prop := o = Some s /\ s <> [].
Definition no_name (o : option str) : Prop := o = None \/ o = Some [].
Inductive offered_as (c : gcube) : str -> Prop :=
| by_var s : nonempty_name (q_var c) s -> offered_as c s
| by_std s : no_name (q_var c) -> nonempty_name (q_std c) s -> offered_as c s
| by_long s : no_name (q_var c) -> no_name (q_std c) -> nonempty_name (q_long c) s -> offered_as c s
| unknown : no_name (q_var c) -> no_name (q_std c) -> no_name (q_long c) -> offered_as c (lit "unknown").
