(** C03: fixed-point conversion. *)
From Verif Require Import PyBase FloatModel FloatSpec AnalogProofs FloatProofs.
From Flocq Require Import IEEE754.BinarySingleNaN Core.
From Coq Require Import Reals.
Open Scope R_scope.

(** C03 (fixed-point conversion rounds to nearest even and round-trips).  A finite x converts to the
    nearest integer to x * 2^f unless x * 2^f exceeds the float64 range. *)
Theorem C03_float_to_fixed_nearest :
  forall (x : f64) f z,
    (0 <= f <= 1023)%Z -> is_finite x = true ->
    float_to_fixed x f = Ok z -> nearest_even (B2R x * bpow radix2 f) z.
Proof. exact float_to_fixed_nearest. Qed.
Print Assumptions C03_float_to_fixed_nearest.

Theorem C03_float_to_fixed_defined :
  forall (x : f64) f,
    (0 <= f <= 1023)%Z -> is_finite x = true ->
    (Rabs (B2R x * bpow radix2 f) < bpow radix2 1024 <-> exists z, float_to_fixed x f = Ok z).
Proof. exact float_to_fixed_defined. Qed.
Print Assumptions C03_float_to_fixed_defined.

Theorem C03_nearest_even_unique :
  forall r a b, nearest_even r a -> nearest_even r b -> a = b.
Proof. exact nearest_even_unique. Qed.
Print Assumptions C03_nearest_even_unique.

Theorem C03_nonfinite_rejected :
  forall (x : f64) f,
    (0 <= f <= 1023)%Z -> is_finite x = false ->
    float_to_fixed x f = Raise (if is_nan x then ValueError else OverflowError).
Proof. exact float_to_fixed_nonfinite. Qed.
Print Assumptions C03_nonfinite_rejected.

Theorem C03_negative_frac_rejected :
  forall (x : f64) f, (f < 0)%Z -> float_to_fixed x f = Raise AssertionError /\
    forall m, fixed_to_float m f = Raise AssertionError.
Proof. exact negative_frac_rejected. Qed.
Print Assumptions C03_negative_frac_rejected.

Theorem C03_fixed_to_float_exact :
  forall m f,
    (Z.abs m <= 2 ^ 53)%Z -> (0 <= f <= 1021)%Z ->
    exists x, fixed_to_float m f = Ok x /\ is_finite x = true /\ B2R x = IZR m * bpow radix2 (- f).
Proof. exact fixed_to_float_ok. Qed.
Print Assumptions C03_fixed_to_float_exact.

Theorem C03_round_trip :
  forall m f,
    (Z.abs m <= 2 ^ 53)%Z -> (0 <= f <= 1021)%Z ->
    exists x, fixed_to_float m f = Ok x /\ float_to_fixed x f = Ok m.
Proof. exact fixed_round_trip. Qed.
Print Assumptions C03_round_trip.

(** 2.5 and 3.5 are ties, -0.625 in units of 1/4 is -2.5. *)
Example C03_case :
  float_to_fixed (fdiv (f_of_Z 5) (f_of_Z 2)) 0 = Ok 2%Z /\
  float_to_fixed (fdiv (f_of_Z 7) (f_of_Z 2)) 0 = Ok 4%Z /\
  float_to_fixed (fdiv (f_of_Z (-5)) (f_of_Z 8)) 2 = Ok (-2)%Z /\
  float_to_fixed (fdiv (f_of_Z 1) (f_of_Z 3)) 10 = Ok 341%Z.
Proof. vm_compute. auto. Qed.
