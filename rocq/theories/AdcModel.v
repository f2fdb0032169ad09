(** The conversion errors that blocks/adc.py accumulates; the conversion itself is in MvmuModel. *)
From Verif Require Import PyBase FloatModel MvmuModel.
From Coq Require Import Permutation.
Open Scope Z_scope.

(** One converter: the current step, and the currents of the positive and the negative crossbar. *)
Record element := MkElement { a_step : f64; a_pos : f64; a_neg : f64 }.
(** The elements of the arrays of ADCArray.convert, row by row (numpy broadcasts the steps, blocks/adc.py:66, 75). *)
Definition elements (steps : list f64) (pos neg : list (list f64)) : list element :=
  flat_map (fun q => map (fun p => MkElement (fst q) (fst p) (snd p)) (combine (fst (snd q)) (snd (snd q)))) (combine steps (combine pos neg)).
(** ideal_values: blocks/adc.py:93-95. *)
Definition adc_ideal (x : element) : f64 := fsub (fdiv (a_pos x) (a_step x)) (fdiv (a_neg x) (a_step x)).
(** errors, blocks/adc.py:99, for the integer before clamping of line 98 (numpy converts it to float64). *)
Definition adc_error (x : element) : f64 := fabs (fsub (adc_ideal x) (f_of_Z (adc_int (a_step x) (a_pos x) (a_neg x)))).
(** np.sum of a float64 array, blocks/adc.py:106: numpy does not promise an order, and sums in parts. *)
Inductive sums : list f64 -> f64 -> Prop :=
| su_zero : sums [] f0
| su_one x : sums [x] x
| su_add l1 l2 v1 v2 : sums l1 v1 -> sums l2 v2 -> sums (l1 ++ l2) (fadd v1 v2)
| su_perm l l' v : Permutation l l' -> sums l v -> sums l' v.
(** ADCStats.conversion_errors, 0.0 at first (blocks/adc.py:18), after a conversion with total error [v]: blocks/adc.py:114. *)
Definition errors_init : f64 := f0.
Definition errors_add (e v : f64) : f64 := fadd e v.
