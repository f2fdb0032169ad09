(** IEEE binary64 arithmetic (python float, numpy float64) and the float part of
    utils/data_convert.py. *)
From Verif Require Import PyBase.
From Flocq Require Import IEEE754.BinarySingleNaN Core.
From Coq Require Import Permutation.
Open Scope Z_scope.

Definition prec64 : Z := 53.
Definition emax64 : Z := 1024.
#[global] Instance prec64_gt_0 : Prec_gt_0 prec64 := eq_refl.
#[global] Instance prec64_lt_emax64 : Prec_lt_emax prec64 emax64 := eq_refl.

Definition f64 : Type := binary_float prec64 emax64.

Definition fadd (x y : f64) : f64 := Bplus mode_NE x y.
Definition fsub (x y : f64) : f64 := Bminus mode_NE x y.
Definition fmul (x y : f64) : f64 := Bmult mode_NE x y.
Definition fdiv (x y : f64) : f64 := Bdiv mode_NE x y.
Definition ffma (x y z : f64) : f64 := Bfma mode_NE x y z.
Definition fopp (x : f64) : f64 := Bopp x.
Definition fabs (x : f64) : f64 := Babs x.
Definition flt (x y : f64) : bool := Bltb x y.

(** float(z) of a python integer, or int64 -> float64 of numpy: round to nearest even.
    (python raises OverflowError where this returns infinity.) *)
Definition f_of_Z (z : Z) : f64 := binary_normalize prec64 emax64 _ _ mode_NE z 0 false.
Definition f0 : f64 := f_of_Z 0.
Definition f1 : f64 := f_of_Z 1.

(** The integer nearest to x, ties to even. *)
Definition fnearest (x : f64) : Z := Btrunc (Bnearbyint mode_NE x).

(** python's round(x) for a float. *)
Definition py_round (x : f64) : res Z :=
  if is_nan x then Raise ValueError
  else if is_finite x then Ok (fnearest x) else Raise OverflowError.

(** np.round(x).astype(np.int_), for finite x below 2^63 (simplification: numpy leaves the other
    cases undefined). *)
Definition np_rint (x : f64) : Z := fnearest x.

(** np.sign *)
Definition fsign (x : f64) : f64 :=
  if is_nan x then x else if flt x f0 then f_of_Z (-1) else if flt f0 x then f1 else f0.

(** np.maximum(x, 0) *)
Definition fmax0 (x : f64) : f64 := if flt x f0 then f0 else x.

(** np.clip(x, 0, 1) *)
Definition fclip01 (x : f64) : f64 := if flt x f0 then f0 else if flt f1 x then f1 else x.

(** int_to_conductance: utils/data_convert.py:1-4. *)
Definition int_to_conductance (int_data bits : Z) (gmin gmax : f64) : res f64 :=
  if negb (int_data <? 2 ^ bits) then Raise AssertionError
  else
    let step := fdiv (fsub gmax gmin) (f_of_Z (2 ^ bits - 1)) in
    Ok (fadd gmin (fmul (f_of_Z int_data) step)).

(** float_to_fixed: utils/data_convert.py:7-12. *)
Definition float_to_fixed (float_val : f64) (fractional_bits : Z) : res Z :=
  if negb (0 <=? fractional_bits) then Raise AssertionError
  else
    let scaling_factor := Z.shiftl 1 fractional_bits in
    let scaled_value := fmul float_val (f_of_Z scaling_factor) in
    py_round scaled_value.

(** fixed_to_float: utils/data_convert.py:15-19.  python's int / int true division is correctly
    rounded; here both integers are converted first, which is the same for a magnitude of the
    numerator up to 2^53 because the denominator is a power of two (simplification stated for
    larger numerators). *)
Definition fixed_to_float (fixed_point_val fractional_bits : Z) : res f64 :=
  if negb (0 <=? fractional_bits) then Raise AssertionError
  else Ok (fdiv (f_of_Z fixed_point_val) (f_of_Z (Z.shiftl 1 fractional_bits))).

(** ** Sums of products in an unspecified order

    numpy's einsum does not promise an evaluation order, may start from 0, may split the sum
    into partial sums and may use fused multiply-add.  [sumprod l v] holds when v can be the
    float64 result for the products of the pairs in l. *)
Inductive sumprod : list (f64 * f64) -> f64 -> Prop :=
| sp_zero : sumprod [] f0
| sp_prod a b : sumprod [(a, b)] (fmul a b)
| sp_add l1 l2 v1 v2 : sumprod l1 v1 -> sumprod l2 v2 -> sumprod (l1 ++ l2) (fadd v1 v2)
| sp_fma a b l v : sumprod l v -> sumprod ((a, b) :: l) (ffma a b v)
| sp_perm l l' v : Permutation l l' -> sumprod l v -> sumprod l' v.

(** One particular order: left to right, starting from 0. *)
Definition dot_lr (a b : list f64) : f64 :=
  fold_left (fun acc p => fadd acc (fmul (fst p) (snd p))) (combine a b) f0.
