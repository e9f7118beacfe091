(** C108: the printed description of data. *)
From Coq Require Import String.
From Verif Require Import Base PyStr QBase MtModel MtSpec AeroModel SumModel SumSpec SumProofs.
From Coq Require Import List Ascii.
Import ListNotations.
Open Scope string_scope. Open Scope list_scope. Open Scope nat_scope. Notation length := List.length.

(** The description is complete and tells each coordinate's present range; of the data it tells the range recorded before, and records the present one *)
Theorem C108_describes U unit_text number_end date_end d : has_range U (s_item d) -> Forall (has_range U) (s_coords d) -> told (m_range (t_meta (s_item d))) ->
  exists d' text, summary U unit_text number_end date_end false d = (d', Ok text) /\ described U unit_text number_end date_end d (m_range (t_meta (s_item d))) text /\
    same_but_range (s_item d) (s_item d') /\ Forall2 same_but_range (s_coords d) (s_coords d') /\ range_now U (s_item d) (m_range (t_meta (s_item d'))).
Proof. exact (describes U unit_text number_end date_end d). Qed.
Print Assumptions C108_describes.
(** A second description changes nothing any more, tells the present range of the data too, and is the first one again if the data had recorded it *)
Theorem C108_again U unit_text number_end date_end d d1 t1 : has_range U (s_item d) -> Forall (has_range U) (s_coords d) -> summary U unit_text number_end date_end false d = (d1, Ok t1) ->
  exists t2, summary U unit_text number_end date_end false d1 = (d1, Ok t2) /\ described U unit_text number_end date_end d1 (m_range (t_meta (s_item d1))) t2 /\
    range_now U (s_item d1) (m_range (t_meta (s_item d1))) /\ (s_item d1 = s_item d -> t2 = t1).
Proof. exact (again U unit_text number_end date_end d d1 t1). Qed.
Print Assumptions C108_again.
(** The short description and repr *)
Theorem C108_short U unit_text number_end date_end d : exists name u, goes_by (t_meta (s_item d)) name /\ units_read unit_text (m_units (t_meta (s_item d))) u /\
  summary U unit_text number_end date_end true d = (d, Ok (of_lines [lit "Ungridded data: " ++ name ++ lit " / (" ++ u ++ lit ") "])) /\
  repr_of unit_text d = lit "<cis 'UngriddedData' of " ++ of_lines [lit "Ungridded data: " ++ name ++ lit " / (" ++ u ++ lit ") "] ++ lit ">".
Proof. exact (summary_short U unit_text number_end date_end d). Qed.
Print Assumptions C108_short.
(** Data of which no range has been recorded cannot be described *)
Theorem C108_no_range_refuted U unit_text number_end date_end d :
  (m_range (t_meta (s_item d)) = NoRange -> summary U unit_text number_end date_end false d = (d, Raises TypeError)) /\ (m_range (t_meta (s_item d)) = EmptyRange -> summary U unit_text number_end date_end false d = (d, Raises IndexError)).
Proof. exact (summary_fails U unit_text number_end date_end d). Qed.
Print Assumptions C108_no_range_refuted.
(** nor can data with a coordinate of no values *)
Theorem C108_empty_refuted U unit_text number_end date_end d d' t : (exists c, In c (s_coords d) /\ values c = []) -> summary U unit_text number_end date_end false d <> (d', Ok t).
Proof. exact (summary_empty U unit_text number_end date_end d d' t). Qed.
Print Assumptions C108_empty_refuted.
(** After new values have been put in, the description tells the range of the old ones, and the next one differs *)
Theorem C108_stale_refuted : exists U unit_text number_end date_end d v d1 d2 t1 t2,
  has_range U (s_item d) /\ Forall (has_range U) (s_coords d) /\ range_now U (s_item d) (m_range (t_meta (s_item d))) /\
  has_range U (s_item (put_values d [2] v)) /\ ~ range_now U (s_item (put_values d [2] v)) (m_range (t_meta (s_item (put_values d [2] v)))) /\
  summary U unit_text number_end date_end false (put_values d [2] v) = (d1, Ok t1) /\ summary U unit_text number_end date_end false d1 = (d2, Ok t2) /\ t1 <> t2 /\
  described U unit_text number_end date_end (put_values d [2] v) (m_range (t_meta (s_item d))) t1.
Proof. exact stale. Qed.
Print Assumptions C108_stale_refuted.
(** A concrete set of data, its description in full *)
Example C108_nonvacuous : has_range (fun _ => None) (s_item example) /\ Forall (has_range (fun _ => None)) (s_coords example) /\ told (m_range (t_meta (s_item example))) /\ s_coords example <> [] /\
  exists d text, summary (fun _ => None) (fun _ => []) example_end example_end false example = (d, Ok text) /\ text = of_lines (map lit
    ["Ungridded data: smoke / (K) "; "     Shape = (2,)"; ""; "     Total number of points = 2"; "     Number of non-masked points = 1";
     "     Long name = smoke"; "     Standard name = None"; "     Units = K"; "     Missing value = None"; "     Range = (1, 1)"; "     History = h"; "     Misc attributes: "; "       Note_A = b";
     "     Coordinates: "; "       latitude"; "          Long name = "; "          Standard name = latitude"; "          Units = degrees"; "          Missing value = None"; "          Range = (3, 7)"; "          History = "])%string.
Proof. exact example_ok. Qed.
Example C108_nonvacuous2 : m_range (t_meta (s_item example_unset)) = NoRange /\ exists c, In c (s_coords example_unset) /\ values c = [].
Proof. exact example_unset_ok. Qed.
