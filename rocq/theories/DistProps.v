(** Property C53: distances with units. *)
From Coq Require Import Ascii.
From Verif Require Import Base PyStr QBase DistModel DistSpec DistProofs.
Open Scope Q_scope.

(** A decimal number as people write it (any sign, digits, point, exponent), followed by a word of letters, with blanks
    anywhere around: without a unit the number is returned as is; km and m are converted to the same length; any other
    word is rejected. *)
Theorem C53_distances_convert : forall pre d mid u post,
  decimal_ok d -> Forall blank pre -> Forall blank mid -> Forall is_letter u -> Forall blank post ->
  let s := pre ++ render d ++ mid ++ u ++ post in
  (u = [] -> parse_distance_km s = Ok (value d) /\ parse_distance_m s = Ok (value d))
  /\ (u = lit "km"%string -> parse_distance_km s = Ok (value d) /\ exists q, parse_distance_m s = Ok q /\ q == 1000 * value d)
  /\ (u = lit "m"%string -> (exists q, parse_distance_km s = Ok q /\ 1000 * q == value d) /\ exists q, parse_distance_m s = Ok q /\ q == value d)
  /\ (u <> [] -> u <> lit "km"%string -> u <> lit "m"%string ->
        parse_distance_km s = Raises InvalidCommandLineOptionError /\ parse_distance_m s = Raises InvalidCommandLineOptionError).
Proof. exact distances. Qed.
Print Assumptions C53_distances_convert.

(** Whatever text is accepted contains exactly one number, and that is the number used. *)
Theorem C53_accepted_text_has_one_number : forall s q u, split_into_float_and_units s = Ok (q, u) ->
  exists v, findall_numbers (length s) s = [v] /\ q = float_of v.
Proof. exact accepted_has_one_number. Qed.
Print Assumptions C53_accepted_text_has_one_number.

Definition ex_dec : decimal := mkDec Minus [1; 2]%nat (Some [5]%nat) (Some (false, Plus, [3]%nat)).
Example C53_example : decimal_ok ex_dec /\ render ex_dec = lit "-12.5e+3"%string /\ Qred (value ex_dec) = -(12500)
  /\ match parse_distance_km (lit " -12.5e+3 m"%string) with Ok q => Qred q = -(25 # 2) | _ => False end
  /\ parse_distance_km (lit "5 miles"%string) = Raises InvalidCommandLineOptionError
  /\ parse_distance_m (lit "1m2"%string) = Raises InvalidCommandLineOptionError.
Proof. repeat split; try reflexivity; repeat constructor; simpl; try lia; discriminate. Qed.
