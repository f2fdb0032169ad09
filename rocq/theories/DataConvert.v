(** utils/data_convert.py, integer part.  The float conversions are in FloatModel. *)
From Verif Require Import PyBase.

(** extract_bits: utils/data_convert.py:22-29.  Python integers are unbounded, >> is arithmetic. *)
Definition extract_bits (val start_index end_index : Z) : res Z :=
  if negb (0 <=? start_index) then Raise AssertionError
  else if negb (start_index <? end_index) then Raise AssertionError
  else
    let num_bits_to_extract := end_index - start_index in
    let mask := Z.shiftl 1 num_bits_to_extract - 1 in
    let shifted_value := Z.shiftr val start_index in
    Ok (Z.land shifted_value mask).
